(** C48-C50, C57-C63: the command line tool. *)
From Coq Require Import QArith Lia Bool ZifyBool ZifyNat ZifyN.
From Verif Require Import GoStr SpecStr GoStrFacts GoNum SpecNum GoTime Types Enums EnumTables Records Common Messages Codec SpecCodec Schema
  Document SpecDocument Accessors SpecLists Utf8 Wire SpecWire WireFacts Url Clients SpecClients ClientFacts Cli SpecCli Samples CliFacts CliRuns CliDry CliDetect CliSamples.
Close Scope Q_scope.

(** ** Commands and what they print *)

Lemma show_of name : In name queries -> exists k, In (name, k) query_shows.
Proof. unfold query_shows, queries. cbn [In combine]. intros H. repeat destruct H as [<-|H]; [..|contradiction];
  [exists print_accounts|exists print_bank|exists print_cc|exists print_inv]; auto 6. Qed.

(** ** detect-settings *)

(** C48: the attempts are made with the combinations in this order, one after the
    other, until the first one that works, or all. *)
Theorem C48_detection : forall m args asg l e, flag_args args asg -> io_runs (main m (bs "detect-settings" :: args)) l e ->
  (network l = [] /\ exists code, e = Exited code /\ (code = 0%Z -> helped asg)) \/
  exists l1 l2 st e', credentials (bs "detect-settings") asg l1 (st_username st) (st_password st) /\
    st_serverURL st = value_of (bs "url") [] asg /\ st_org st = value_of (bs "org") [] asg /\ st_fid st = value_of (bs "fid") [] asg /\
    st_clientUID st = value_of (bs "clientuid") [] asg /\ (forall d, delay_of asg d <-> d = st_delay st) /\
    l = l1 ++ l2 /\ detection m st 0 combinations l2 e' /\ (e = e' \/ e' = Finished tt /\ e = Exited 0).
Proof. exact main_detects. Qed.
Print Assumptions C48_detection.

(** The combinations are all there are, without repetition. *)
Theorem C48_combinations : length combinations = 594 /\ NoDup combinations /\
  forall a vs v o n, In (a, vs) detect_apps -> In v vs -> In o detect_versions -> In (mkCombination a v o n) combinations.
Proof. split; [reflexivity|]. split; [exact combinations_nodup|exact combinations_all]. Qed.
Print Assumptions C48_combinations.

(** A server that refuses the first combination and accepts the second one from an
    anonymous user. *)
Example C48_case :
  exists l e, io_runs (main cli_machine (bs "detect-settings" :: cli_args)) l e /\
    match e with Exited 0 => true | _ => false end && Nat.eqb (length (network l)) 4 &&
    str_eqb (printed l) (bs "Attempt 1 failed (OFXGO 0001 203), trying again after 500ms..." ++ [chr 10] ++
                         works_text (mkCombination (bs "OFXGO") (bs "0001") (bs "203", OfxVersion203) true)) = true.
Proof.
  destruct (io_case _ (main cli_machine (bs "detect-settings" :: cli_args)) [RRand cli_random; RClock sample_date; RNet [RHttp None]; RClock sample_date; RNet [RHttp None];
    RRand cli_random; RClock sample_date; RNet [RHttp None]; RClock sample_date;
    RNet [cli_reply sample_response]]
    (fun l e => match e with Exited 0 => true | _ => false end && Nat.eqb (length (network l)) 4 &&
      str_eqb (printed l) (bs "Attempt 1 failed (OFXGO 0001 203), trying again after 500ms..." ++ [chr 10] ++
                           works_text (mkCombination (bs "OFXGO") (bs "0001") (bs "203", OfxVersion203) true)))) as (l & e & H & Hb);
    [vm_compute; reflexivity|]. exists l, e. split; [exact H|exact Hb].
Qed.

(** ** Dry runs *)

(** C49: with -dryrun nothing is sent and no file is written, whatever the command
    and the other arguments. *)
Theorem C49_dry : forall m name args asg v l e, flag_args args asg -> last_given (bs "dryrun") v asg -> yes v ->
  io_runs (main m (name :: args)) l e -> network l = [] /\ filter file_event l = [].
Proof.
  intros m name args asg v l e Ha Hv Hy H. apply quiet_runs in H; [|eapply main_dry; eauto].
  split; [apply local_network, H|apply local_no_files, H].
Qed.
Print Assumptions C49_dry.

(** C57: -dryrun prints exactly the bytes that are sent without it, for the same
    random bytes, time and password. *)
Theorem C57_shows : forall m name args asg l e l' e', In name (downloads ++ queries) -> flag_args args asg -> ~ In (bs "dryrun") (map fst asg) ->
  io_runs (main m (name :: args)) l' e' -> network l' <> [] ->
  io_runs (main m (name :: bs "-dryrun" :: args)) l e -> inputs l = inputs l' ->
  e = Exited 0 /\ exists l1 t b, l = l1 ++ [EClock t; EPrint (b ++ [chr 10])] /\ carries (network l') (eq b).
Proof. exact main_shows. Qed.
Print Assumptions C57_shows.

Definition sent_body (tr : list event) : str := match tr with [EHttp r _] => hr_body r | _ => [] end.

Definition driven (o : option (list io_event * ended unit)) : list io_event * ended unit := match o with Some x => x | None => ([], Crashed) end.

Example C57_case :
  exists l e l' e', io_runs (main cli_machine (bs "download-bank" :: bank_args)) l' e' /\ network l' <> [] /\
    io_runs (main cli_machine (bs "download-bank" :: bs "-dryrun" :: bank_args)) l e /\ inputs l = inputs l' /\
    sent_body (network l') <> [] /\ last l (EClock sample_date) = EPrint (sent_body (network l') ++ [chr 10]).
Proof.
  set (real := drive_io (main cli_machine (bs "download-bank" :: bank_args)) [RRand cli_random; RClock sample_date; RNet [RHttp None]]).
  set (dry := drive_io (main cli_machine (bs "download-bank" :: bs "-dryrun" :: bank_args)) [RRand cli_random; RClock sample_date]).
  assert (Hr : real = Some (driven real)) by (vm_compute; reflexivity). assert (Hd : dry = Some (driven dry)) by (vm_compute; reflexivity).
  exists (fst (driven dry)), (snd (driven dry)), (fst (driven real)), (snd (driven real)).
  split; [apply drive_io_runs with (l := [RRand cli_random; RClock sample_date; RNet [RHttp None]]); rewrite <- surjective_pairing; exact Hr|].
  split; [vm_compute; discriminate|].
  split; [apply drive_io_runs with (l := [RRand cli_random; RClock sample_date]); rewrite <- surjective_pairing; exact Hd|].
  split; [vm_compute; reflexivity|]. split; [vm_compute; discriminate|]. vm_compute. reflexivity.
Qed.

Example C49_case :
  exists l e, io_runs (main cli_machine (bs "transactions-inv" :: bs "-dryrun=T" :: inv_args)) l e /\
    flag_args (bs "-dryrun=T" :: cli_args) ((bs "dryrun", bs "T") :: cli_assignments) /\
    last_given (bs "dryrun") (bs "T") ((bs "dryrun", bs "T") :: cli_assignments) /\ yes (bs "T") /\ e = Exited 0 /\ printed l <> [].
Proof.
  destruct (io_case _ (main cli_machine (bs "transactions-inv" :: bs "-dryrun=T" :: inv_args)) [RRand cli_random; RClock sample_date]
    (fun l e => match e, printed l with Exited 0, _ :: _ => true | _, _ => false end)) as (l & e & H & Hb); [vm_compute; reflexivity|].
  exists l, e. split; [exact H|]. split.
  - apply (fa_equals (bs "-") (bs "dryrun") (bs "T")); [left; reflexivity| |exact cli_flag_args].
    split; [discriminate|]. split; [discriminate|]. cbn. intuition discriminate.
  - split; [exists [], cli_assignments; split; [reflexivity|cbn; intuition discriminate]|].
    split; [cbn; tauto|]. destruct e as [?|[| |]|]; try discriminate. split; [reflexivity|]. intros X. rewrite X in Hb. discriminate.
Qed.

(** ** Crashes *)

(** C50: the tool crashes only after a valid response that accepts the login, and
    only when one of these parts of it is missing. *)
Theorem C50_crash_partial : forall m args l, io_runs (main m args) l Crashed ->
  exists name rest r, args = name :: rest /\ accepted (m_env m) (network l) r /\ unprintable name r.
Proof. exact main_crash. Qed.
Print Assumptions C50_crash_partial.

(** In these cases it does crash. *)
Theorem C50_unprintable : forall m name rest l e r, io_runs (main m (name :: rest)) l e -> accepted (m_env m) (network l) r ->
  unprintable name r -> e = Crashed.
Proof. exact unprintable_crash. Qed.
Print Assumptions C50_unprintable.

(** As stated, C50 is false for each of the three commands. *)
Theorem C50_crash_refuted : forall name, In name [bs "transactions-bank"; bs "transactions-cc"; bs "transactions-inv"] ->
  exists m args l r, io_runs (main m (name :: args)) l Crashed /\ accepted (m_env m) (network l) r.
Proof.
  intros name Hn.
  assert (Hd : forall args r, match drive_io (main cli_machine (name :: args)) (cli_answer r) with
                         | Some (l, Crashed) => match accepted_of sample_env (network l) with Some _ => true | None => false end
                         | _ => false end = true ->
               exists m args l r, io_runs (main m (name :: args)) l Crashed /\ accepted (m_env m) (network l) r).
  { intros args r H. destruct (drive_io _ _) as [[l [| |]]|] eqn:E; try discriminate. destruct (accepted_of _ _) as [r'|] eqn:Ea; [|discriminate].
    exists cli_machine, args, l, r'. split; [eapply drive_io_runs, E|apply accepted_of_some, Ea]. }
  cbn [In] in Hn. repeat destruct Hn as [<-|Hn]; [..|contradiction].
  - apply (Hd bank_args (bank_response None)). vm_compute. reflexivity.
  - apply (Hd cc_args (cc_response (Some (mkTransactionList sample_date sample_date [nameless])))). vm_compute. reflexivity.
  - apply (Hd inv_args (inv_response None (Some sample_transactions))). vm_compute. reflexivity.
Qed.
Print Assumptions C50_crash_refuted.

(** ** Downloads *)

(** C58: a download either sends nothing and touches no file, or ends in one of four
    ways; the status is 0 only if the body of the last answer, of status 200, was
    written to the file. *)
Theorem C58_downloads : forall m name args asg l e, In name downloads -> flag_args args asg -> io_runs (main m (name :: args)) l e ->
  (network l = [] /\ filter file_event l = [] /\ (status e = 0%Z -> turned_on (bs "dryrun") asg = true \/ helped asg) \/
   download_ends (value_of (bs "filename") (bs "./response.ofx") asg) (network l) (filter file_event l) e).
Proof. exact main_downloads. Qed.
Print Assumptions C58_downloads.

Example C58_case :
  exists l e, io_runs (main cli_machine (bs "download-profile" :: cli_args)) l e /\
    match filter file_event l, e with
    | [ECreate f true; ESave b true], Exited 0 => str_eqb f (bs "./response.ofx") && str_eqb b (bs "anything")
    | _, _ => false
    end = true.
Proof.
  apply (io_case _ _ [RRand cli_random; RClock sample_date; RNet [RHttp (Some (mkHttpResponse 200 (bs "200 OK") 8 [] [] (bs "anything")))]; RFile true; RFile true]).
  vm_compute. reflexivity.
Qed.

(** ** Queries *)

(** C59: the exit status of the other commands. *)
Theorem C59_success : forall m name args asg l e, In name queries -> flag_args args asg -> io_runs (main m (name :: args)) l e ->
  status e = 0%Z -> turned_on (bs "dryrun") asg = true \/ helped asg \/ exists r, accepted (m_env m) (network l) r /\ ~ unprintable name r.
Proof.
  intros m name args asg l e Hn Ha H He. destruct (show_of _ Hn) as [k Hk].
  destruct (main_queries _ _ _ _ _ _ Hk H) as [(Hl & _)|[(-> & _)|(r & l1 & l2 & e' & -> & Hacc & _ & _ & Hr & ->)]].
  - destruct (query_silent _ _ _ _ _ _ Hn Ha H Hl He); auto.
  - discriminate.
  - right. right. exists r. split; [exact Hacc|]. intros Hu. apply (query_prints _ _ _ _ _ Hk Hr) in Hu. rewrite Hu in He. discriminate.
Qed.
Print Assumptions C59_success.

Theorem C59_accepted : forall m name args l e r, In name queries -> io_runs (main m (name :: args)) l e ->
  accepted (m_env m) (network l) r -> ~ unprintable name r -> e = Exited 0.
Proof.
  intros m name args l e r Hn H Hacc Hu. destruct (show_of _ Hn) as [k Hk].
  destruct (query_accepted _ _ _ _ _ _ _ Hk H Hacc) as (l1 & l2 & e' & -> & _ & _ & _ & Hr & ->).
  pose proof (query_prints _ _ _ _ _ Hk Hr) as Hp. destruct e' as [[]|code|]; [reflexivity| |tauto].
  exfalso. unfold query_shows, queries in Hk. cbn [combine In] in Hk. repeat destruct Hk as [Hk|Hk]; [..|contradiction]; injection Hk as <- <-.
  - apply print_accounts_runs in Hr as (_ & X & _). discriminate.
  - apply print_bank_runs in Hr as [_ Hr]. destruct (sl_bank (rs_slots r)) as [|x ms]; [destruct Hr; discriminate|].
    destruct x as [| | | | | | |s| | | | |]; try (destruct Hr; discriminate). destruct (StatementResponse_BankTranList s); [destruct Hr|]; discriminate.
  - apply print_cc_runs in Hr as [_ Hr]. destruct (sl_creditcard (rs_slots r)) as [|x ms]; [destruct Hr; discriminate|].
    destruct x as [| | | | | | | |s| | | |]; try (destruct Hr; discriminate). destruct (CCStatementResponse_BankTranList s); [|discriminate].
    destruct Hr as [(_ & _ & X)|(X & _)]; discriminate.
  - apply print_inv_runs in Hr as [_ Hr]. destruct (sl_invstmt (rs_slots r)) as [|x ms]; [destruct Hr; discriminate|].
    destruct x as [| | | | | | | | |s| | |]; try (destruct Hr; discriminate).
    destruct (InvStatementResponse_InvBal s), (InvStatementResponse_InvTranList s); try discriminate. destruct Hr; discriminate.
Qed.
Print Assumptions C59_accepted.

Theorem C59_refused : forall m name args l e, In name queries -> io_runs (main m (name :: args)) l e ->
  network l <> [] -> (forall r, ~ accepted (m_env m) (network l) r) -> e = Exited 1.
Proof.
  intros m name args l e Hn H Hl Hacc. destruct (show_of _ Hn) as [k Hk].
  destruct (main_queries _ _ _ _ _ _ Hk H) as [(X & _)|[(-> & _)|(r & l1 & l2 & e' & -> & Ha & _)]]; [contradiction|reflexivity|].
  destruct (Hacc _ Ha).
Qed.
Print Assumptions C59_refused.

(** ** Statements of bank accounts and credit cards *)

(** C60: after an accepted response the whole output, but for the prompt, is the
    balance and one line for each transaction of the first statement, in order. *)
Theorem C60_bank : forall m args l e r s ms ts, io_runs (main m (bs "transactions-bank" :: args)) l e ->
  accepted (m_env m) (network l) r ->
  sl_bank (rs_slots r) = MsgStatementResponse s :: ms -> StatementResponse_BankTranList s = Some ts ->
  e = Exited 0 /\ exists l1 l2, l = l1 ++ l2 /\ network l1 = network l /\ prompted (printed l1) /\
    statement_text (StatementResponse_BalAmt s) (StatementResponse_CurDef s) (StatementResponse_DtAsOf s)
      (TransactionList_Transactions ts) (printed l2).
Proof.
  intros m args l e r s ms ts H Ha Es Et.
  assert (Hk : In (bs "transactions-bank", print_bank) query_shows) by (unfold query_shows; cbn; tauto).
  destruct (query_accepted _ _ _ _ _ _ _ Hk H Ha) as (l1 & l2 & e' & -> & Hp & Hn & Hn1 & Hr & ->).
  apply print_bank_runs in Hr as [_ Hr]. rewrite Es, Et in Hr. destruct Hr as [Hr ->]. split; [reflexivity|]. exists l1, l2. auto.
Qed.
Print Assumptions C60_bank.

Theorem C60_creditcard : forall m args l e r s ms ts, io_runs (main m (bs "transactions-cc" :: args)) l e ->
  accepted (m_env m) (network l) r ->
  sl_creditcard (rs_slots r) = MsgCCStatementResponse s :: ms -> CCStatementResponse_BankTranList s = Some ts ->
  Forall (fun t => exists name, payee_name t name) (TransactionList_Transactions ts) ->
  e = Exited 0 /\ exists l1 l2, l = l1 ++ l2 /\ network l1 = network l /\ prompted (printed l1) /\
    statement_text (CCStatementResponse_BalAmt s) (CCStatementResponse_CurDef s) (CCStatementResponse_DtAsOf s)
      (TransactionList_Transactions ts) (printed l2).
Proof.
  intros m args l e r s ms ts H Ha Es Et Hf.
  assert (Hk : In (bs "transactions-cc", print_cc) query_shows) by (unfold query_shows; cbn; tauto).
  destruct (query_accepted _ _ _ _ _ _ _ Hk H Ha) as (l1 & l2 & e' & -> & Hp & Hn & Hn1 & Hr & ->).
  apply print_cc_runs in Hr as [_ Hr]. rewrite Es, Et in Hr.
  destruct Hr as [(_ & Hr & ->)|(_ & t & Ht & N1 & N2)]; [split; [reflexivity|]; exists l1, l2; auto|].
  exfalso. rewrite Forall_forall in Hf. destruct (Hf t Ht) as (name & [[N _]|(_ & p & N & _)]); congruence.
Qed.
Print Assumptions C60_creditcard.

(** Without such messages the tool says so. *)
Theorem C60_nothing : forall m name args l e r, In name [bs "transactions-bank"; bs "transactions-cc"] -> io_runs (main m (name :: args)) l e ->
  accepted (m_env m) (network l) r -> (if str_eqb name (bs "transactions-bank") then sl_bank (rs_slots r) else sl_creditcard (rs_slots r)) = [] ->
  e = Exited 0 /\ exists l1 l2, l = l1 ++ l2 /\ network l1 = network l /\ prompted (printed l1) /\ printed l2 = bs "No banking messages received" ++ [chr 10].
Proof.
  intros m name args l e r Hn H Ha Es. cbn [In] in Hn. destruct Hn as [<-|[<-|[]]].
  - change (str_eqb _ _) with true in Es. cbv iota in Es.
    assert (Hk : In (bs "transactions-bank", print_bank) query_shows) by (unfold query_shows; cbn; tauto).
    destruct (query_accepted _ _ _ _ _ _ _ Hk H Ha) as (l1 & l2 & e' & -> & Hp & Hn & Hn1 & Hr & ->).
    apply print_bank_runs in Hr as [_ Hr]. rewrite Es in Hr. destruct Hr as [Hr ->]. split; [reflexivity|]. exists l1, l2. auto.
  - change (str_eqb _ _) with false in Es. cbv iota in Es.
    assert (Hk : In (bs "transactions-cc", print_cc) query_shows) by (unfold query_shows; cbn; tauto).
    destruct (query_accepted _ _ _ _ _ _ _ Hk H Ha) as (l1 & l2 & e' & -> & Hp & Hn & Hn1 & Hr & ->).
    apply print_cc_runs in Hr as [_ Hr]. rewrite Es in Hr. destruct Hr as [Hr ->]. split; [reflexivity|]. exists l1, l2. auto.
Qed.
Print Assumptions C60_nothing.

Definition shown (args : list str) (replies : list io_reply) : option (str * Z) :=
  match drive_io (main cli_machine args) replies with Some (l, Exited c) => Some (printed l, c) | _ => None end.

Lemma shown_case name args r text : shown (name :: args) (cli_answer r) = Some (text, 0%Z) ->
  (match drive_io (main cli_machine (name :: args)) (cli_answer r) with
   | Some (l, _) => match accepted_of sample_env (network l) with Some _ => true | None => false end
   | None => false end = true) ->
  exists l r', io_runs (main cli_machine (name :: args)) l (Exited 0) /\ accepted sample_env (network l) r' /\ printed l = text.
Proof.
  unfold shown. destruct (drive_io _ _) as [[l e]|] eqn:E; [|discriminate]. destruct e as [?|c|]; try discriminate. intros H Ha. injection H as <- ->.
  destruct (accepted_of _ _) as [r'|] eqn:Ea; [|discriminate]. exists l, r'. split; [eapply drive_io_runs, E|]. split; [apply accepted_of_some, Ea|reflexivity].
Qed.

Example C60_case :
  exists l r, io_runs (main cli_machine (bs "transactions-bank" :: bank_args)) l (Exited 0) /\ accepted sample_env (network l) r /\
    printed l = bs "Balance: 20.02 USD (as of 20240229134559.250[0:GMT])" ++ [chr 10] ++
                bs "Transactions:" ++ [chr 10] ++
                bs "20240229134559.250[0:GMT] -10.01 USD      DEBIT       Grocer & Son - milk; ""bread""" ++ [chr 10] ++
                bs "20240229134559.250[0:GMT] -10.01 USD      DEBIT       " ++ [chr 10].
Proof. apply (shown_case _ _ (bank_response (Some (mkTransactionList sample_date sample_date [sample_payment; nameless])))); vm_compute; reflexivity. Qed.

(** ** Statements of investment accounts *)

(** C61: the transactions are shown in order, each with its kind, its date and its
    contents in the form that [inv_template] gives; the cash balance is shown if it is a whole number and not a multiple
    of 2^64. *)
Theorem C61_investments_partial : forall m args l e r s ms b ts, io_runs (main m (bs "transactions-inv" :: args)) l e ->
  accepted (m_env m) (network l) r ->
  sl_invstmt (rs_slots r) = MsgInvStatementResponse s :: ms -> InvStatementResponse_InvBal s = Some b -> InvStatementResponse_InvTranList s = Some ts ->
  e = Exited 0 /\ exists l1 l2, l = l1 ++ l2 /\ network l1 = network l /\ prompted (printed l1) /\
    investment_text (InvBalance_AvailCash b) (InvStatementResponse_CurDef s) (InvStatementResponse_DtAsOf s) ts (printed l2).
Proof.
  intros m args l e r s ms b ts H Ha Es Eb Et.
  assert (Hk : In (bs "transactions-inv", print_inv) query_shows) by (unfold query_shows; cbn; tauto).
  destruct (query_accepted _ _ _ _ _ _ _ Hk H Ha) as (l1 & l2 & e' & -> & Hp & Hn & Hn1 & Hr & ->).
  apply print_inv_runs in Hr as [_ Hr]. rewrite Es, Eb, Et in Hr. destruct Hr as [Hr ->]. split; [reflexivity|]. exists l1, l2. auto.
Qed.
Print Assumptions C61_investments_partial.

(** A balance of 12.50 is not shown. *)
Theorem C61_balance_refuted : exists m args l r s ms b ts, io_runs (main m (bs "transactions-inv" :: args)) l (Exited 0) /\
  accepted (m_env m) (network l) r /\ sl_invstmt (rs_slots r) = MsgInvStatementResponse s :: ms /\
  InvStatementResponse_InvBal s = Some b /\ InvStatementResponse_InvTranList s = Some ts /\
  (InvBalance_AvailCash b == 25 # 2)%Q /\ forall x y, printed l <> x ++ amount_string (InvBalance_AvailCash b) ++ y.
Proof.
  destruct (io_case _ (main cli_machine (bs "transactions-inv" :: inv_args))
    (cli_answer (inv_response (Some (cash_balance (25 # 2))) (Some (mkInvTranList sample_date sample_date [] []))))
    (fun l e => match accepted_of sample_env (network l), e with
               | Some r, Exited 0 =>
                   match sl_invstmt (rs_slots r) with
                   | MsgInvStatementResponse s :: _ =>
                       match InvStatementResponse_InvBal s, InvStatementResponse_InvTranList s with
                       | Some b, Some _ => Qeq_bool (InvBalance_AvailCash b) (25 # 2) &&
                           match index_of (amount_string (InvBalance_AvailCash b)) (printed l) with None => true | Some _ => false end
                       | _, _ => false
                       end
                   | _ => false
                   end
               | _, _ => false
               end)) as (l & e & E & Hb); [vm_compute; reflexivity|].
  destruct (accepted_of _ _) as [r|] eqn:Ea; [|discriminate]. destruct e as [?|[| |]|]; try discriminate.
  destruct (sl_invstmt (rs_slots r)) as [|x ms] eqn:Es; [discriminate|]. destruct x as [| | | | | | | | |s| | |]; try discriminate.
  destruct (InvStatementResponse_InvBal s) as [b|] eqn:Eb; [|discriminate]. destruct (InvStatementResponse_InvTranList s) as [ts|] eqn:Et; [|discriminate].
  apply andb_true_iff in Hb as [Hq Hi]. exists cli_machine, inv_args, l, r, s, ms, b, ts.
  split; [exact E|]. split; [apply accepted_of_some, Ea|]. split; [exact Es|]. split; [exact Eb|]. split; [exact Et|].
  split; [apply Qeq_bool_iff, Hq|]. destruct (index_of _ _) eqn:Ei; [discriminate|]. intros x y X. exact (index_of_none _ _ Ei x y X).
Qed.
Print Assumptions C61_balance_refuted.

(** A purchase is shown without a space between its date and the units. *)
Theorem C61_space_refuted : exists t date units, InvTran_DtTrade (InvTransaction_InvTransaction_method t) = date /\
  In units (inv_facts (bs "USD") t) /\ units = bs "10" /\
  forall line, investment_line (bs "USD") t line ->
    line = bs "BUYSTOCK      20240229134559.250[0:GMT]10 (CUSIP 037833100)@2.5 USD (Total: -25)" ++ [chr 10].
Proof.
  exists (InvTransaction_BuyStock (mkBuyStock (mkInvBuy (mkInvTran (bs "1") [] sample_date None [] [])
    (mkSecurityID (bs "037833100") (bs "CUSIP")) 10 (5 # 2) 0 0 0 0 0 (-25 # 1) (mkCurrency 0 [])
    (mkCurrency 0 []) 0 0 [] 0 0 0 None false) 1)), sample_date, (bs "10").
  split; [reflexivity|]. split; [left; vm_compute; reflexivity|]. split; [reflexivity|].
  intros line H. destruct H as [kind (k & -> & [Hk|[_ Hk]])].
  - change (length (runes (transaction_name _))) with 8 in Hk. assert (k = 6) as -> by lia. vm_compute. reflexivity.
  - change (length (runes (transaction_name _))) with 8 in Hk. lia.
Qed.
Print Assumptions C61_space_refuted.

Example C61_case :
  exists l r, io_runs (main cli_machine (bs "transactions-inv" :: inv_args)) l (Exited 0) /\ accepted sample_env (network l) r /\
    printed l = bs "Balance: 37 USD (as of 20240229134559.250[0:GMT])" ++ [chr 10] ++
                [chr 10] ++ bs "Bank Transactions for CASH subaccount:" ++ [chr 10] ++
                [chr 10] ++ bs "Investment Transactions:" ++ [chr 10].
Proof. apply (shown_case _ _ (inv_response (Some (cash_balance 37)) (Some (mkInvTranList sample_date sample_date [] [mkInvBankTransaction [] 1])))); vm_compute; reflexivity. Qed.

(** ** Requests *)

(** C62: whatever is sent by one run of a command is the request that its flags
    describe, made with the client they describe. *)
Theorem C62_sends : forall m name args asg l e, In name (downloads ++ queries) -> flag_args args asg -> io_runs (main m (name :: args)) l e ->
  network l <> [] ->
  exists l1 c q t tr l2, prepared m name asg l1 c q /\ l = l1 ++ EClock t :: map ENet tr ++ l2 /\ network l2 = [] /\ network l = tr /\
    carries tr (client_document t c q).
Proof. exact main_sends. Qed.
Print Assumptions C62_sends.

Example C62_case :
  exists l e, io_runs (main cli_machine (bs "transactions-cc" :: cc_args)) l e /\ network l <> [] /\ flag_args cli_args cli_assignments.
Proof.
  destruct (io_case _ (main cli_machine (bs "transactions-cc" :: cc_args)) [RRand cli_random; RClock sample_date; RNet [RHttp None]]
    (fun l _ => match network l with [EHttp r _] => true | _ => false end)) as (l & e & H & Hb); [vm_compute; reflexivity|].
  exists l, e. split; [exact H|]. split; [intros X; rewrite X in Hb; discriminate|exact cli_flag_args].
Qed.

(** ** Accounts *)

(** C63: get-accounts lists every account of the response, in order, and prints
    nothing else. *)
Theorem C63_accounts : forall m args l e r a ms, io_runs (main m (bs "get-accounts" :: args)) l e ->
  accepted (m_env m) (network l) r -> sl_signup (rs_slots r) = MsgAcctInfoResponse a :: ms ->
  e = Exited 0 /\ exists l1 l2, l = l1 ++ l2 /\ network l1 = network l /\ prompted (printed l1) /\
    printed l2 = accounts_text (AcctInfoResponse_AcctInfo a).
Proof.
  intros m args l e r a ms H Ha Es.
  assert (Hk : In (bs "get-accounts", print_accounts) query_shows) by (unfold query_shows; cbn; tauto).
  destruct (query_accepted _ _ _ _ _ _ _ Hk H Ha) as (l1 & l2 & e' & -> & Hp & Hn & Hn1 & Hr & ->).
  apply print_accounts_runs in Hr as (_ & -> & Hr). rewrite Es in Hr. split; [reflexivity|]. exists l1, l2. auto.
Qed.
Print Assumptions C63_accounts.

Definition sample_holder : HolderInfo := mkHolderInfo [] [] [] [] [] [] [] [] [] [] [] [] [] 0.
Definition accounts_response : Response :=
  cli_response (mkSlots [MsgAcctInfoResponse (mkAcctInfoResponse (bs "1") sample_status [] sample_date
    [mkAcctInfo [] [] [] sample_holder sample_holder None (Some (mkCCAcctInfo (mkCCAcct (bs "4111") []) true false false 0 2)) None;
     mkAcctInfo (bs "a name") (bs "some account") [] sample_holder sample_holder None None None])] [] [] [] [] [] [] [] [] [] [] [] [] []).

Theorem C63_nothing : forall m args l e r, io_runs (main m (bs "get-accounts" :: args)) l e ->
  accepted (m_env m) (network l) r -> sl_signup (rs_slots r) = [] ->
  e = Exited 0 /\ exists l1 l2, l = l1 ++ l2 /\ network l1 = network l /\ prompted (printed l1) /\
    printed l2 = bs "No signup messages received" ++ [chr 10].
Proof.
  intros m args l e r H Ha Es.
  assert (Hk : In (bs "get-accounts", print_accounts) query_shows) by (unfold query_shows; cbn; tauto).
  destruct (query_accepted _ _ _ _ _ _ _ Hk H Ha) as (l1 & l2 & e' & -> & Hp & Hn & Hn1 & Hr & ->).
  apply print_accounts_runs in Hr as (_ & -> & Hr). rewrite Es in Hr. split; [reflexivity|]. exists l1, l2. auto.
Qed.
Print Assumptions C63_nothing.

Example C63_case :
  exists l r, io_runs (main cli_machine (bs "get-accounts" :: cli_args)) l (Exited 0) /\ accepted sample_env (network l) r /\
    printed l = [chr 10] ++ bs "Found the following accounts:" ++ [chr 10; chr 10] ++
                bs "Credit card:" ++ [chr 10; chr 9] ++ bs "AcctID: ""4111""" ++ [chr 10] ++
                bs "Unknown type: a name some account" ++ [chr 10].
Proof. apply (shown_case _ _ accounts_response); vm_compute; reflexivity. Qed.
