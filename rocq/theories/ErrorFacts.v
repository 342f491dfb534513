(** Proofs about the messages of failing commands. *)
From Coq Require Import QArith Lia Bool ZifyBool ZifyNat ZifyN.
From Verif Require Import GoStr SpecStr GoStrFacts GoNum GoTime Types Enums EnumTables Records Common Messages Codec Document Wire Url Clients
  SpecClients ClientFacts Accessors SpecValid ValidFacts FilingFacts Cli SpecCli SpecFlags SpecErrors CliFacts CliRuns CliDetect FlagFacts.
Close Scope Q_scope.

(** ** The checks of the flags *)

Definition check_prompt (st : settings) : str :=
  match st_serverURL st, st_username st, st_password st with
  | _ :: _, _ :: _, [] => bs "Password for " ++ st_username st ++ bs ": "
  | _, _, _ => []
  end.
Definition empty_says (v s : str) : str := match v with [] => line s | _ => [] end.

(** The settings that the checks leave alone. *)
Definition kept (st st' : settings) : Prop :=
  st_filename st' = st_filename st /\ st_ofxVersion st' = st_ofxVersion st /\ st_acctType st' = st_acctType st.

Lemma check_server_says m st l e : io_runs (check_server_flags m st) l e ->
  Forall local_event l /\ exists ok st' pw, e = Finished (ok, st') /\ no_password m l pw /\ kept st st' /\
  (ok = true -> pw = []) /\
  printed l = check_prompt st ++ empty_says (st_serverURL st) (bs "Error: Server URL empty") ++
              empty_says (st_username st) (bs "Error: Username empty") ++ pw /\
  (ok = false <-> empty_says (st_serverURL st) (bs "Error: Server URL empty") ++ empty_says (st_username st) (bs "Error: Username empty") ++ pw <> []).
Proof.
  intros H. unfold check_server_flags, println, print in H. unfold check_prompt, empty_says.
  assert (N0 : no_password m [] []) by (apply np_none; intros []).
  assert (N1 : forall s, no_password m [EPrint s] []) by (intros s; apply np_none; intros [X|[]]; discriminate X).
  assert (N2 : forall s s', no_password m [EPrint s; EPrint s'] []) by (intros s s'; apply np_none; intros [X|[X|[]]]; discriminate X).
  destruct (st_serverURL st) as [|u0 u], (st_username st) as [|n0 n]; cbn [is_empty bind_io negb andb] in H;
    repeat (apply io_print_inv in H as (? & -> & H));
    try (apply io_return_inv in H as [-> ->]; split; [repeat constructor|]; exists false, st, [];
         split; [reflexivity|]; split; [auto|]; split; [repeat split|]; split; [reflexivity|]; split; [reflexivity|]; split; [discriminate|reflexivity]).
  destruct (st_password st) as [|p0 p]; cbn [is_empty] in H.
  - apply io_print_inv in H as (? & -> & H). apply io_prompt_inv in H as ([p|] & ? & -> & H).
    + apply io_return_inv in H as [-> ->]. split; [repeat constructor|]. exists true, (set_password p st), [].
      split; [reflexivity|]. split; [apply np_none; intros [X|[X|[]]]; discriminate X|]. split; [repeat split|].
      split; [reflexivity|]. split; [reflexivity|]. split; [discriminate|]. intros X. exfalso. apply X. reflexivity.
    + cbn [bind_io] in H. apply io_print_inv in H as (? & -> & H). apply io_return_inv in H as [-> ->].
      split; [repeat constructor|]. exists false, st, (line (bs "Error reading password: " ++ m_error m (EPlain (bs "password")))).
      split; [reflexivity|]. split; [apply np_some; [right; left; reflexivity|eexists; reflexivity]|]. split; [repeat split|].
      split; [discriminate|]. split; [cbn [app printed flat_map]; rewrite app_nil_r; reflexivity|].
      split; [|reflexivity]. intros _ X. discriminate X.
  - apply io_return_inv in H as [-> ->]. split; [constructor|]. exists true, st, []. split; [reflexivity|]. split; [exact N0|].
    split; [repeat split|]. split; [reflexivity|]. split; [reflexivity|]. split; [discriminate|]. intros X. exfalso. apply X. reflexivity.
Qed.

Lemma no_password_app m l l' s : ~ In (EPrompt None) l' -> no_password m l s -> no_password m (l ++ l') s.
Proof.
  intros H [Hn|t Hi Ht]; [apply np_none|apply np_some; [apply in_or_app; left; exact Hi|exact Ht]].
  intros X. apply in_app_or in X. tauto.
Qed.

Lemma check_download_says m st l e : io_runs (check_download_flags m st) l e ->
  Forall local_event l /\ exists ok st' pw, e = Finished (ok, st') /\ no_password m l pw /\ kept st st' /\ (ok = true -> pw = []) /\
  printed l = check_prompt st ++ empty_says (st_serverURL st) (bs "Error: Server URL empty") ++
              empty_says (st_username st) (bs "Error: Username empty") ++ pw ++ empty_says (st_filename st) (bs "Error: Filename empty") /\
  (ok = false <-> empty_says (st_serverURL st) (bs "Error: Server URL empty") ++ empty_says (st_username st) (bs "Error: Username empty") ++ pw ++
                  empty_says (st_filename st) (bs "Error: Filename empty") <> []).
Proof.
  intros H. unfold check_download_flags, println in H. apply io_runs_bind in H as [(r & l1 & l2 & H1 & H & ->)|[(code & -> & H)|[-> H]]];
    [|apply check_server_ends in H as [r Y]; discriminate Y|apply check_server_ends in H as [r Y]; discriminate Y].
  apply check_server_says in H1 as (Hl & ok & st' & pw & E & Hp & Hf & Hok & Hpr & Hiff). injection E as ->. cbn [snd] in H. rewrite (proj1 Hf) in H.
  destruct (st_filename st) as [|f0 f]; cbn [is_empty bind_io empty_says] in *.
  - apply io_print_inv in H as (? & -> & H). apply io_return_inv in H as [-> ->]. split; [apply Forall_app; split; [exact Hl|repeat constructor]|].
    exists false, st', pw. split; [reflexivity|]. split; [apply no_password_app; [|exact Hp]; intros [X|[]]; discriminate X|]. split; [exact Hf|].
    split; [discriminate|]. split; [rewrite printed_app, Hpr, <- !app_assoc; reflexivity|]. split; [|reflexivity]. intros _ X.
    apply app_eq_nil in X as [_ X]. apply app_eq_nil in X as [_ X]. apply app_eq_nil in X as [_ X]. discriminate X.
  - apply io_return_inv in H as [-> ->]. rewrite !app_nil_r. split; [exact Hl|]. exists ok, st', pw. rewrite app_nil_r. auto 8.
Qed.

(** For the commands. *)
Lemma check_says m c asg l e : In c commands -> io_runs (cmd_check c m (settings_after asg defaults)) l e ->
  Forall local_event l /\ exists ok st' pw, e = Finished (ok, st') /\ no_password m l pw /\ kept (settings_after asg defaults) st' /\ (ok = true -> pw = []) /\
  printed l = password_prompt asg ++ no_url asg ++ no_user (cmd_name c) asg ++ pw ++ no_file (cmd_name c) asg /\
  (ok = false <-> no_url asg ++ no_user (cmd_name c) asg ++ pw ++ no_file (cmd_name c) asg <> []).
Proof.
  intros Hc. cbn [In commands] in Hc.
  assert (S : forall name, name <> bs "download-profile" -> ~ In name downloads -> io_runs (check_server_flags m (settings_after asg defaults)) l e ->
    Forall local_event l /\ exists ok st' pw, e = Finished (ok, st') /\ no_password m l pw /\ kept (settings_after asg defaults) st' /\ (ok = true -> pw = []) /\
    printed l = password_prompt asg ++ no_url asg ++ no_user name asg ++ pw ++ no_file name asg /\
    (ok = false <-> no_url asg ++ no_user name asg ++ pw ++ no_file name asg <> [])).
  { intros name N1 N2 H. apply check_server_says in H as (Hl & ok & st' & pw & E & Hp & Hf & Hok & Hpr & Hiff). split; [exact Hl|].
    exists ok, st', pw. split; [exact E|]. split; [exact Hp|]. split; [exact Hf|]. split; [exact Hok|].
    assert (En : no_user name asg = empty_says (st_username (settings_after asg defaults)) (bs "Error: Username empty")).
    { unfold no_user. destruct (str_eqb_spec name (bs "download-profile")); [contradiction|reflexivity]. }
    assert (Ef : no_file name asg = []).
    { unfold no_file. destruct (existsb (str_eqb name) downloads) eqn:X; [|reflexivity]. apply existsb_exists in X as (y & Hy & Xy).
      apply str_eqb_eq in Xy as ->. contradiction. }
    rewrite En, Ef, app_nil_r. split; [exact Hpr|exact Hiff]. }
  assert (D : forall name, name <> bs "download-profile" -> In name downloads -> io_runs (check_download_flags m (settings_after asg defaults)) l e ->
    Forall local_event l /\ exists ok st' pw, e = Finished (ok, st') /\ no_password m l pw /\ kept (settings_after asg defaults) st' /\ (ok = true -> pw = []) /\
    printed l = password_prompt asg ++ no_url asg ++ no_user name asg ++ pw ++ no_file name asg /\
    (ok = false <-> no_url asg ++ no_user name asg ++ pw ++ no_file name asg <> [])).
  { intros name N1 N2 H. apply check_download_says in H as (Hl & ok & st' & pw & E & Hp & Hf & Hok & Hpr & Hiff). split; [exact Hl|].
    exists ok, st', pw. split; [exact E|]. split; [exact Hp|]. split; [exact Hf|]. split; [exact Hok|].
    assert (En : no_user name asg = empty_says (st_username (settings_after asg defaults)) (bs "Error: Username empty")).
    { unfold no_user. destruct (str_eqb_spec name (bs "download-profile")); [contradiction|reflexivity]. }
    assert (Ef : no_file name asg = empty_says (st_filename (settings_after asg defaults)) (bs "Error: Filename empty")).
    { unfold no_file. destruct (existsb (str_eqb name) downloads) eqn:X; [reflexivity|]. exfalso.
      rewrite <- not_true_iff_false in X. apply X. apply existsb_exists. exists name. split; [exact N2|]. apply str_eqb_eq. reflexivity. }
    rewrite En, Ef. split; [exact Hpr|exact Hiff]. }
  assert (P : io_runs (check_profile_flags m (settings_after asg defaults)) l e ->
    Forall local_event l /\ exists ok st' pw, e = Finished (ok, st') /\ no_password m l pw /\ kept (settings_after asg defaults) st' /\ (ok = true -> pw = []) /\
    printed l = password_prompt asg ++ no_url asg ++ no_user (bs "download-profile") asg ++ pw ++ no_file (bs "download-profile") asg /\
    (ok = false <-> no_url asg ++ no_user (bs "download-profile") asg ++ pw ++ no_file (bs "download-profile") asg <> [])).
  { intros H. unfold check_profile_flags in H. apply check_download_says in H as (Hl & ok & st' & pw & E & Hp & Hf & Hok & Hpr & Hiff).
    split; [exact Hl|]. exists ok, st', pw. split; [exact E|]. split; [exact Hp|].
    split; [unfold kept in *; destruct (is_empty (st_username (settings_after asg defaults))); exact Hf|]. split; [exact Hok|].
    change (no_user (bs "download-profile") asg) with (@nil ascii). clear - Hpr Hiff.
    unfold password_prompt, no_url, if_missing. unfold check_prompt in Hpr.
    change (no_file (bs "download-profile") asg) with (empty_says (st_filename (settings_after asg defaults)) (bs "Error: Filename empty")).
    change (value_of (bs "url") [] asg) with (st_serverURL (settings_after asg defaults)).
    change (value_of (bs "username") [] asg) with (st_username (settings_after asg defaults)).
    change (value_of (bs "password") [] asg) with (st_password (settings_after asg defaults)).
    revert Hpr Hiff. generalize (settings_after asg defaults). intros st.
    destruct (st_username st) as [|n0 n] eqn:En; cbn [is_empty]; cbn [st_serverURL st_username st_password st_filename set_password set_username].
    - intros Hpr Hiff. split; [|exact Hiff]. rewrite Hpr. destruct (st_serverURL st); reflexivity.
    - rewrite En. intros Hpr Hiff. split; [exact Hpr|exact Hiff]. }
  intros Hrun. repeat destruct Hc as [<-|Hc]; [..|contradiction]; cbn [cmd_check cmd_name] in Hrun |- *;
    first [exact (P Hrun) | apply D; [discriminate|unfold downloads; cbn [In]; tauto|exact Hrun]
          | apply S; [discriminate|unfold downloads; cbn [In]; intuition discriminate|exact Hrun]].
Qed.

(** ** The commands *)

Lemma told_of m err : told m (m_error m err).
Proof. exists err. reflexivity. Qed.

Lemma new_request_says m st l e : io_runs (new_request m st) l e -> (l = [] /\ exists c, e = Finished c) \/
  (exists v t, enum_new enum_ofxVersion (st_ofxVersion st) = (v, false) /\ told m t /\
     l = [EPrint (line (bs "Error creating new OfxVersion enum: " ++ t))] /\ e = Exited 1).
Proof.
  unfold new_request. destruct (enum_new _ _) as [v []]; intros H.
  - apply io_return_inv in H as [-> ->]. left. eauto.
  - apply println_exit in H as [-> ->]. right. exists v. eexists. split; [reflexivity|]. split; [apply told_of|]. split; reflexivity.
Qed.
Lemma account_type_says m st l e : io_runs (account_type m st) l e -> (l = [] /\ exists t, e = Finished t) \/
  (exists v t, enum_new enum_acctType (st_acctType st) = (v, false) /\ told m t /\
     l = [EPrint (line (bs "Error parsing accttype: " ++ t))] /\ e = Exited 1).
Proof.
  unfold account_type. destruct (enum_new _ _) as [v []]; intros H.
  - apply io_return_inv in H as [-> ->]. left. eauto.
  - apply println_exit in H as [-> ->]. right. exists v. eexists. split; [reflexivity|]. split; [apply told_of|]. split; reflexivity.
Qed.
Lemma new_uid_says m l e : io_runs (new_uid m) l e -> exists r, (l = [ERand r] /\ exists uid, e = Finished uid) \/
  (exists t, random_uid r = None /\ told m t /\ l = [ERand r; EPrint (line (bs "Error creating uid for transaction: " ++ t))] /\ e = Exited 1).
Proof.
  unfold new_uid. intros H. apply io_rand_inv in H as (r & l' & -> & H). exists r. destruct (random_uid r) as [uid|].
  - apply io_return_inv in H as [-> ->]. left. eauto.
  - apply println_exit in H as [-> ->]. right. eexists. split; [reflexivity|]. split; [apply told_of|]. split; reflexivity.
Qed.

Lemma finish_says m what st c q l : io_runs (finish_download m what st c q) l (Exited 1) ->
  exists t, told m t /\
  ((printed l = line (bs "Error requesting " ++ what ++ bs ": " ++ t) /\ forall rp, last_answer (network l) = Some rp -> rp_code rp <> 200%Z) \/
   (printed l = line (bs "Error creating file to write to: " ++ t) /\ In (ECreate (st_filename st) false) l) \/
   (printed l = line (bs "Error writing response to file: " ++ t) /\ exists b, In (ESave b false) l)).
Proof.
  intros H. unfold finish_download in H. destruct (st_dryrun st).
  { apply print_request_runs in H as [X _]. discriminate X. }
  apply io_runs_bind in H as [(o & l1 & l2 & H1 & H & ->)|[(c0 & E & H1)|[E H1]]];
    apply send_runs in H1 as (t & tr & x & E1 & E2 & Hr); try discriminate.
  subst l1. injection E2 as ->. destruct x as [o q']. cbn [fst] in H.
  assert (Pr : forall l', printed ((EClock t :: map ENet tr) ++ l') = printed l').
  { intros l'. rewrite printed_app. change (printed (EClock t :: map ENet tr)) with (printed (map ENet tr)). rewrite printed_net. reflexivity. }
  apply no_parse_proper in Hr as [(rp & -> & Hc & Hl)|(Hc & err & Ho & _)].
  - apply io_create_inv in H as ([] & l3 & -> & H); cbn [negb] in H.
    + apply io_save_inv in H as ([] & l4 & -> & H); cbn [negb] in H.
      * apply io_return_inv in H as [_ X]. discriminate X.
      * apply println_exit in H as [-> _]. eexists. split; [apply told_of|]. right; right. rewrite Pr.
        split; [apply app_nil_r|]. exists (rp_body rp). apply in_or_app. right. right. left. reflexivity.
    + apply println_exit in H as [-> _]. eexists. split; [apply told_of|]. right; left. rewrite Pr.
      split; [apply app_nil_r|]. apply in_or_app. right. left. reflexivity.
  - destruct o as [a [err'|]]; [|discriminate].
    assert (H' : io_runs (println (bs "Error requesting " ++ what ++ bs ": " ++ m_error m err') ~; Exit 1) l2 (@Exited unit 1)) by (destruct a; exact H).
    apply println_exit in H' as [-> _]. eexists. split; [apply told_of|]. left. rewrite Pr. split; [apply app_nil_r|].
    change (network ((EClock t :: map ENet tr) ++ [EPrint ((bs "Error requesting " ++ what ++ bs ": " ++ m_error m err') ++ [chr 10])])) with
      (network (map ENet tr ++ [EPrint ((bs "Error requesting " ++ what ++ bs ": " ++ m_error m err') ++ [chr 10])])).
    rewrite network_app, network_net, app_nil_r. exact Hc.
Qed.

Lemma answered_meaning e tr r : answered e tr r -> exists t, status_code_meaning (SignonResponse_Status (rs_signon r)) = Some t.
Proof.
  intros (rp & _ & _ & _ & Hv). apply response_valid_iff in Hv as [[_ Hs] _]. apply status_meaning_iff. unfold status_ok, known_code in *. tauto.
Qed.

Definition never_exits (p : io unit) : Prop := forall l c, ~ io_runs p l (Exited c).

Lemma ask_says m error st c q k l : (forall r, never_exits (k r)) -> io_runs (ask_and_check m error st c q k) l (Exited 1) ->
  (exists t, told m t /\ (forall r, ~ answered (m_env m) (network l) r) /\
    printed l = match error with Some s => line (s ++ bs ": " ++ t) | None => [] end) \/
  (exists r meaning, let s := SignonResponse_Status (rs_signon r) in answered (m_env m) (network l) r /\ Status_Code s <> 0%Z /\
     status_code_meaning s = Some meaning /\
     printed l = line (bs "Nonzero signon status (" ++ fmt_d (Status_Code s) ++ bs ": " ++ meaning ++ bs ") with message: " ++ Status_Message s)).
Proof.
  intros Hk H. unfold ask_and_check in H. destruct (st_dryrun st).
  { apply print_request_runs in H as [X _]. discriminate X. }
  apply io_runs_bind in H as [(x & l1 & l2 & H1 & H & ->)|[(c0 & E & H1)|[E H1]]];
    apply ask_runs in H1 as (t & tr & y & E1 & E2 & Hr); try discriminate.
  subst l1. injection E2 as ->. destruct y as [y q'].
  assert (Pr : forall l', printed ((EClock t :: map ENet tr) ++ l') = printed l').
  { intros l'. rewrite printed_app. change (printed (EClock t :: map ENet tr)) with (printed (map ENet tr)). rewrite printed_net. reflexivity. }
  assert (Nt : forall l', network l' = [] -> network ((EClock t :: map ENet tr) ++ l') = tr).
  { intros l' El. rewrite network_app, El, app_nil_r. change (network (EClock t :: map ENet tr)) with (network (map ENet tr)). apply network_net. }
  destruct (client_request_answer _ _ _ _ _ _ _ Hr) as [(r & -> & Ha)|(err & -> & Ha)]; cbn [fst] in H.
  - cbv zeta in H. destruct (Status_Code (SignonResponse_Status (rs_signon r)) =? 0)%Z eqn:Ec; [exfalso; exact (Hk _ _ _ H)|].
    right. apply print_then in H as (l' & -> & H). apply io_exit_inv in H as [-> _]. rewrite Pr, Nt by reflexivity.
    destruct (answered_meaning _ _ _ Ha) as [meaning Em]. exists r, meaning. cbv zeta. split; [exact Ha|]. split; [lia|]. split; [exact Em|].
    rewrite Em. unfold line. rewrite <- !app_assoc. apply app_nil_r.
  - left. destruct error as [s|].
    + apply println_exit in H as [-> _]. rewrite Pr, Nt by reflexivity. eexists. split; [apply told_of|]. split; [exact Ha|apply app_nil_r].
    + apply io_exit_inv in H as [-> _]. rewrite Pr, Nt by reflexivity. eexists. split; [apply (told_of m err)|]. split; [exact Ha|reflexivity].
Qed.

Lemma show_never r : never_exits (print_accounts r) /\ never_exits (print_bank r) /\ never_exits (print_cc r) /\ never_exits (print_inv r).
Proof.
  split; [|split; [|split]]; intros l c H.
  - apply print_accounts_runs in H as (_ & X & _). discriminate X.
  - apply print_bank_runs in H as (_ & X). destruct (sl_bank (rs_slots r)) as [|x xs]; [destruct X as [_ X]; discriminate X|].
    destruct x; try (destruct X as [_ X]; discriminate X). destruct (StatementResponse_BankTranList _); [destruct X as [_ X]|]; discriminate X.
  - apply print_cc_runs in H as (_ & X). destruct (sl_creditcard (rs_slots r)) as [|x xs]; [destruct X as [_ X]; discriminate X|].
    destruct x; try (destruct X as [_ X]; discriminate X). destruct (CCStatementResponse_BankTranList _); [|discriminate X].
    destruct X as [(_ & _ & X)|[X _]]; discriminate X.
  - apply print_inv_runs in H as (_ & X). destruct (sl_invstmt (rs_slots r)) as [|x xs]; [destruct X as [_ X]; discriminate X|].
    destruct x; try (destruct X as [_ X]; discriminate X). destruct (InvStatementResponse_InvBal _); [|discriminate X].
    destruct (InvStatementResponse_InvTranList _); [destruct X as [_ X]|]; discriminate X.
Qed.

(** A program that sends nothing before its end. *)
Definition query_error (name : str) : option str :=
  if str_eqb name (bs "transactions-inv") then None else Some (bs "Error requesting " ++ wanted name).

Inductive last_step (m : machine) (st : settings) : str -> io unit -> Prop :=
| ls_download name c q : In name downloads -> last_step m st name (finish_download m (wanted name) st c q)
| ls_query name c q k : In name queries -> (forall r, never_exits (k r)) -> last_step m st name (ask_and_check m (query_error name) st c q k).

Lemma last_says m st asg name f h l : last_step m st name f -> st_filename st = value_of (bs "filename") (bs "./response.ofx") asg ->
  network h = [] -> io_runs f l (Exited 1) -> why m name asg (h ++ l) (printed l).
Proof.
  intros Hf Es Hh H. destruct Hf as [name c q Hn|name c q k Hn Hk].
  - apply finish_says in H as (t & Ht & [[-> H]|[[-> H]|[-> (b & H)]]]).
    + apply w_download; [exact Hn| |exact Ht]. rewrite network_app, Hh. exact H.
    + apply w_create; [exact Hn| |exact Ht]. rewrite <- Es. apply in_or_app. right. exact H.
    + apply (w_save _ _ _ _ b); [exact Hn| |exact Ht]. apply in_or_app. right. exact H.
  - apply (ask_says _ _ _ _ _ _ _ Hk) in H as [(t & Ht & Ha & ->)|(r & meaning & Ha & Hc & Hm & ->)].
    + unfold query_error. destruct (str_eqb_spec name (bs "transactions-inv")) as [E|E].
      * apply w_silent; [exact E|]. rewrite network_app, Hh. exact Ha.
      * rewrite <- app_assoc. apply w_query; [exact Hn|exact E| |exact Ht]. rewrite network_app, Hh. exact Ha.
    + apply (w_status _ _ _ _ r); auto. rewrite network_app, Hh. exact Ha.
Qed.

Lemma do_says m cmd asg st h l : In cmd commands -> cmd_name cmd <> bs "detect-settings" ->
  st_filename st = value_of (bs "filename") (bs "./response.ofx") asg ->
  st_ofxVersion st = value_of (bs "ofxversion") (bs "203") asg -> st_acctType st = value_of (bs "accttype") (bs "CHECKING") asg ->
  network h = [] -> io_runs (cmd_do cmd m st) l (Exited 1) -> why m (cmd_name cmd) asg (h ++ l) (printed l).
Proof.
  intros Hc Hn Ef Ev Et Hh H. cbn [In commands] in Hc.
  assert (Hv : forall name (g : _ -> io unit), io_runs (cq <~ new_request m st; g cq) l (Exited 1) ->
    (forall cq, io_runs (g cq) l (Exited 1) -> why m name asg (h ++ l) (printed l)) -> why m name asg (h ++ l) (printed l)).
  { intros name g Hr Hg. apply io_runs_bind in Hr as [(cq & l1 & l2 & H1 & Hr & ->)|[(code & E & Hr)|[E _]]]; [| |discriminate E].
    - apply new_request_says in H1 as [[-> _]|(v & t & _ & _ & _ & X)]; [|discriminate X]. apply (Hg cq). exact Hr.
    - apply new_request_says in Hr as [[_ [c X]]|(v & t & Hv & Ht & -> & _)]; [discriminate X|]. rewrite Ev in Hv.
      cbn [printed flat_map]. rewrite app_nil_r. apply (w_version _ _ _ _ v); [exact Hv|exact Ht|]. rewrite network_app, Hh. reflexivity. }
  assert (Ht : forall name (g : _ -> io unit), In name [bs "download-bank"; bs "transactions-bank"] -> io_runs (t <~ account_type m st; g t) l (Exited 1) ->
    (forall t, io_runs (g t) l (Exited 1) -> why m name asg (h ++ l) (printed l)) -> why m name asg (h ++ l) (printed l)).
  { intros name g Hb Hr Hg. apply io_runs_bind in Hr as [(cq & l1 & l2 & H1 & Hr & ->)|[(code & E & Hr)|[E _]]]; [| |discriminate E].
    - apply account_type_says in H1 as [[-> _]|(v & t & _ & _ & _ & X)]; [|discriminate X]. apply (Hg cq). exact Hr.
    - apply account_type_says in Hr as [[_ [c X]]|(v & t & Hv' & Ht & -> & _)]; [discriminate X|]. rewrite Et in Hv'.
      cbn [printed flat_map]. rewrite app_nil_r. apply (w_type _ _ _ _ v); [exact Hb|exact Hv'|exact Ht|]. rewrite network_app, Hh. reflexivity. }
  assert (Hu : forall name (g : _ -> io unit), io_runs (uid <~ new_uid m; g uid) l (Exited 1) ->
    (forall uid, last_step m st name (g uid)) -> why m name asg (h ++ l) (printed l)).
  { intros name g Hr Hg. apply io_runs_bind in Hr as [(uid & l1 & l2 & H1 & Hr & ->)|[(code & E & Hr)|[E _]]]; [| |discriminate E].
    - apply new_uid_says in H1 as (r & [[-> _]|(t & _ & _ & _ & X)]); [|discriminate X]. rewrite app_assoc.
      change (printed ([ERand r] ++ l2)) with (printed l2). apply (last_says m st asg name (g uid)); [apply Hg|exact Ef| |exact Hr].
      rewrite network_app, Hh. reflexivity.
    - apply new_uid_says in Hr as (r & [[_ [c X]]|(t & Hr & Ht' & -> & _)]); [discriminate X|].
      cbn [printed flat_map app]. rewrite app_nil_r. apply (w_uid _ _ _ _ r); [apply in_or_app; right; left; reflexivity|exact Hr|exact Ht'|].
      rewrite network_app, Hh. reflexivity. }
  pose proof show_never as Sn.
  repeat destruct Hc as [<-|Hc]; [..|contradiction]; cbn [cmd_do cmd_name] in *; try (exfalso; apply Hn; reflexivity);
    unfold download_profile, get_accounts, download_bank, download_cc, download_inv, transactions_bank, transactions_cc, transactions_inv in H;
    revert H; intros H; apply (Hv _ _ H); clear H; intros cq H;
    try (refine (Ht _ _ _ H _); [cbn [In]; tauto|]; clear H; intros t H);
    apply (Hu _ _ H); intros uid;
    first [apply (ls_download m st); unfold downloads; cbn [In]; tauto
          | apply (ls_query m st); [unfold queries; cbn [In]; tauto|intros r; apply Sn]].
Qed.

(** ** Whole runs *)

Lemma line_of_command name : In name (downloads ++ queries) -> In name (map fst command_texts) /\ name <> bs "detect-settings".
Proof.
  intros H. destruct (find_command_of name H) as (c & _ & Hin & <- & Hn & _). split; [|exact Hn].
  apply (in_map cmd_name) in Hin. exact Hin.
Qed.

Lemma main_says m name args asg l : In name (downloads ++ queries) -> command_line name args (Accepted asg) ->
  io_runs (main m (name :: args)) l (Exited 1) -> exists s, printed l = password_prompt asg ++ s /\ why m name asg l s.
Proof.
  intros Hn Hl H. destruct (line_of_command name Hn) as [Hn' Hd].
  destruct (line_main m name args _ Hn' Hl) as (c & Hf & E). apply find_command_in in Hf as [Hc Ec]. rewrite E in H. clear E.
  apply io_runs_bind in H as [(a & l1 & l2 & _ & H & _)|[(code & X & H)|[X _]]]; [apply io_exit_inv in H as [_ X]; discriminate X| |discriminate X].
  injection X as <-. apply io_runs_bind in H as [([ok st'] & l1 & l2 & H1 & H & ->)|[(code & X & H)|[X _]]]; [| |discriminate X].
  2:{ apply check_says in H as (_ & ok & st' & pw & Y & _); [discriminate Y|exact Hc]. }
  pose proof H1 as H1'. apply check_says in H1 as (Hloc & ok' & st2 & pw & Y & Hpw & (K1 & K2 & K3) & Hok & Hpr & Hiff); [|exact Hc].
  injection Y as <- <-. cbn [fst snd] in H. rewrite Ec in *. destruct ok.
  - exists (printed l2). split.
    + rewrite printed_app, Hpr. f_equal. rewrite (Hok eq_refl) in *.
      destruct (no_url asg ++ no_user name asg ++ [] ++ no_file name asg) as [|a s] eqn:Es; [apply app_nil_r|].
      exfalso. assert (X : true = false) by (apply Hiff; discriminate). discriminate X.
    + rewrite <- Ec in *. apply (do_says m c asg st'); try assumption. apply local_network. exact Hloc.
  - apply print_then in H as (l3 & -> & H). apply print_then in H as (l4 & -> & H). apply io_exit_inv in H as [-> _].
    exists (no_url asg ++ no_user name asg ++ pw ++ no_file name asg ++ [chr 10] ++ line (bs "Usage of " ++ name ++ bs ":")). split.
    + rewrite printed_app, Hpr. cbn [printed flat_map]. unfold line. rewrite app_nil_r, <- !app_assoc. reflexivity.
    + apply w_flags; [|rewrite network_app, (local_network _ Hloc); reflexivity]. apply fw_all; [|apply Hiff; reflexivity].
      apply no_password_app; [|exact Hpw]. intros [X|[X|[]]]; discriminate X.
Qed.

(** ** detect-settings *)

Lemma detection_says m st k xs l e : detection m st k xs l e -> e = Exited 1 ->
  exists a r t, printed l = a ++ line (bs "Error creating uid for transaction: " ++ t) /\ told m t /\ In (ERand r) l /\ random_uid r = None.
Proof.
  intros H. induction H as [k|k x xs l p H Hn Hp|k x xs l s ns l' e H Hw IH Hns Hs|k x xs r err Hr]; intros E; try discriminate E.
  - destruct (IH E) as (a & r & t & Hp & Ht & Hi & Hr). exists (printed l ++ s ++ a), r, t.
    split; [|split; [exact Ht|split; [|exact Hr]]].
    + rewrite printed_app. cbn [printed flat_map]. fold (printed l'). rewrite Hp, <- !app_assoc. reflexivity.
    + apply in_or_app. right. right. right. exact Hi.
  - exists [], r, (m_error m err). split; [|split; [apply told_of|split; [left; reflexivity|exact Hr]]].
    cbn [printed flat_map app]. unfold line. rewrite app_nil_r, <- !app_assoc. reflexivity.
Qed.

Lemma main_detect_says m args asg l : command_line (bs "detect-settings") args (Accepted asg) ->
  io_runs (main m (bs "detect-settings" :: args)) l (Exited 1) ->
  exists s, printed l = password_prompt asg ++ s /\
  (flags_why m (bs "detect-settings") asg l s /\ network l = [] \/
   exists a r t, s = a ++ line (bs "Error creating uid for transaction: " ++ t) /\ told m t /\ In (ERand r) l /\ random_uid r = None).
Proof.
  intros Hl H. assert (Hn : In (bs "detect-settings") (map fst command_texts)) by (unfold command_texts; cbn [map fst In]; tauto).
  destruct (line_main m _ args _ Hn Hl) as (c & Hf & E). rewrite E in H. clear E.
  assert (Hdo : forall st, cmd_do c m st = detect_settings m st).
  { intros st. assert (Hx : exists c', find_command (bs "detect-settings") commands = Some c' /\ cmd_do c' = detect_settings)
      by (eexists; split; reflexivity). destruct Hx as (c' & Hx & Ex). rewrite Hf in Hx. injection Hx as <-. rewrite Ex. reflexivity. }
  apply find_command_in in Hf as [Hc Ec].
  apply io_runs_bind in H as [(a & l1 & l2 & _ & H & _)|[(code & X & H)|[X _]]]; [apply io_exit_inv in H as [_ X]; discriminate X| |discriminate X].
  injection X as <-. apply io_runs_bind in H as [([ok st'] & l1 & l2 & H1 & H & ->)|[(code & X & H)|[X _]]]; [| |discriminate X].
  2:{ apply check_says in H as (_ & ok & st' & pw & Y & _); [discriminate Y|exact Hc]. }
  apply check_says in H1 as (Hloc & ok' & st2 & pw & Y & Hpw & _ & Hok & Hpr & Hiff); [|exact Hc].
  injection Y as <- <-. cbn [fst snd] in H. rewrite Ec in *. destruct ok.
  - exists (printed l2). split.
    + rewrite printed_app, Hpr. f_equal. rewrite (Hok eq_refl) in *.
      destruct (no_url asg ++ no_user (bs "detect-settings") asg ++ [] ++ no_file (bs "detect-settings") asg) as [|a s] eqn:Es; [apply app_nil_r|].
      exfalso. assert (X : true = false) by (apply Hiff; discriminate). discriminate X.
    + right. rewrite Hdo in H. apply detect_runs in H. destruct (detection_says _ _ _ _ _ _ H eq_refl) as (a & r & t & Hp & Ht & Hi & Hr).
      exists a, r, t. split; [exact Hp|]. split; [exact Ht|]. split; [apply in_or_app; right; exact Hi|exact Hr].
  - apply print_then in H as (l3 & -> & H). apply print_then in H as (l4 & -> & H). apply io_exit_inv in H as [-> _].
    exists (no_url asg ++ no_user (bs "detect-settings") asg ++ pw ++ no_file (bs "detect-settings") asg ++ [chr 10] ++
            line (bs "Usage of " ++ bs "detect-settings" ++ bs ":")). split.
    + rewrite printed_app, Hpr. cbn [printed flat_map]. unfold line. rewrite app_nil_r, <- !app_assoc. reflexivity.
    + left. split; [|rewrite network_app, (local_network _ Hloc); reflexivity]. apply fw_all; [|apply Hiff; reflexivity].
      apply no_password_app; [|exact Hpw]. intros [X|[X|[]]]; discriminate X.
Qed.

(** ** Exit statuses *)

Fixpoint exits {A} (p : io A) : Prop :=
  match p with
  | Return _ | Panic => True
  | Exit c => c = 0%Z \/ c = 1%Z
  | Print _ k | Sleep _ k => exits k
  | Clock k => forall x, exits (k x)
  | Rand k => forall x, exits (k x)
  | Prompt k => forall x, exits (k x)
  | Create _ k => forall x, exits (k x)
  | Save _ k => forall x, exits (k x)
  | Send _ k => forall x, exits (k x)
  | Ask _ k => forall x, exits (k x)
  end.

Lemma exits_runs A (p : io A) l e : io_runs p l e -> exits p -> forall c, e = Exited c -> c = 0%Z \/ c = 1%Z.
Proof.
  induction 1; cbn [exits]; intros Hs c0 E; try discriminate E; try (eapply IHio_runs; eauto; fail).
  injection E as <-. exact Hs.
Qed.

Lemma exits_bind A B (p : io A) (f : A -> io B) : exits p -> (forall a, exits (f a)) -> exits (bind_io p f).
Proof. intros Hp Hf. induction p; cbn [exits bind_io] in *; auto. Qed.
Lemma exits_each A (l : list A) f : (forall x, exits (f x)) -> exits (each l f).
Proof. intros Hf. induction l as [|x l IH]; cbn [each]; [exact I|]. apply exits_bind; auto. Qed.
Lemma exits_counting A (l : list A) f : (forall n x, exits (f n x)) -> forall n, exits (each_counting l n f).
Proof. intros Hf. induction l as [|x l IH]; cbn [each_counting]; intros n; [exact I|]. apply exits_bind; auto. Qed.

Ltac leave := repeat first
  [ exact I
  | right; reflexivity
  | left; reflexivity
  | progress intros
  | apply exits_bind
  | apply exits_each
  | apply exits_counting
  | progress cbn [exits println print fst snd]
  | progress cbv zeta
  | match goal with |- exits (match ?x with _ => _ end) => destruct x end ].

Lemma print_request_exits m c q : exits (print_request m c q).
Proof. unfold print_request. leave. Qed.
Lemma finish_exits m what st c q : exits (finish_download m what st c q).
Proof. unfold finish_download, send. destruct (st_dryrun st); [apply print_request_exits|]. leave. Qed.
Lemma ask_exits m er st c q k : (forall r, exits (k r)) -> exits (ask_and_check m er st c q k).
Proof. intros Hk. unfold ask_and_check, ask. destruct (st_dryrun st); [apply print_request_exits|]. leave. apply Hk. Qed.
Lemma new_request_exits m st : exits (new_request m st).
Proof. unfold new_request. destruct (enum_new _ _) as [v [|]]; leave. Qed.
Lemma new_uid_exits m : exits (new_uid m).
Proof. unfold new_uid. leave. Qed.
Lemma account_type_exits m st : exits (account_type m st).
Proof. unfold account_type. destruct (enum_new _ _) as [v [|]]; leave. Qed.
Lemma print_transaction_exits cur t : exits (print_transaction cur t).
Proof. unfold print_transaction. leave. Qed.
Lemma print_cc_transaction_exits cur t : exits (print_cc_transaction cur t).
Proof. unfold print_cc_transaction. leave. Qed.
Lemma print_bank_exits r : exits (print_bank r).
Proof. unfold print_bank. leave; apply print_transaction_exits. Qed.
Lemma print_cc_exits r : exits (print_cc r).
Proof. unfold print_cc. leave; apply print_cc_transaction_exits. Qed.
Lemma print_inv_exits r : exits (print_inv r).
Proof. unfold print_inv. leave; apply print_transaction_exits. Qed.
Lemma detect_exits m st : exits (detect_settings m st).
Proof.
  unfold detect_settings. apply exits_bind; [|intros; exact I].
  apply exits_counting; intros. apply exits_counting; intros. apply exits_counting; intros. apply exits_counting; intros.
  unfold attempt. apply exits_bind; [unfold try_profile, ask; leave; apply new_uid_exits|]. intros []; leave.
Qed.

Lemma commands_exit c m st : In c commands -> exits (cmd_do c m st).
Proof.
  intros H. cbn [In commands] in H. repeat destruct H as [<-|H]; [..|contradiction]; cbn [cmd_do];
    lazymatch goal with
    | |- exits (detect_settings _ _) => apply detect_exits
    | |- _ => unfold download_profile, get_accounts, download_bank, download_cc, download_inv, transactions_bank, transactions_cc, transactions_inv;
        apply exits_bind; [apply new_request_exits|]; intros cq
    end.
  all: lazymatch goal with |- exits (bind_io (account_type _ _) _) => apply exits_bind; [apply account_type_exits|]; intros t | |- _ => idtac end.
  all: apply exits_bind; [apply new_uid_exits|]; intros uid.
  all: lazymatch goal with |- exits (finish_download _ _ _ _ _) => apply finish_exits | |- _ => apply ask_exits; intros r end.
  all: lazymatch goal with
       | |- exits (print_bank _) => apply print_bank_exits
       | |- exits (print_cc _) => apply print_cc_exits
       | |- exits (print_inv _) => apply print_inv_exits
       | |- _ => leave
       end.
Qed.

Lemma check_exits c m st : In c commands -> exits (cmd_check c m st).
Proof.
  assert (S : forall st, exits (check_server_flags m st)) by (clear; intros st; unfold check_server_flags; leave).
  assert (D : forall st, exits (check_download_flags m st)) by (clear - S; intros st; unfold check_download_flags; apply exits_bind; [apply S|]; leave).
  intros H. cbn [In commands] in H. repeat destruct H as [<-|H]; [..|contradiction]; cbn [cmd_check]; unfold check_profile_flags; first [apply S | apply D].
Qed.

Lemma accepted_statuses m name args asg l e : In name (map fst command_texts) -> command_line name args (Accepted asg) ->
  io_runs (main m (name :: args)) l e -> e = Exited 0 \/ e = Exited 1 \/ e = Crashed.
Proof.
  intros Hn Hl H. destruct (line_main m name args _ Hn Hl) as (c & Hf & E). apply find_command_in in Hf as [Hc _]. rewrite E in H. clear E.
  assert (X : e <> Finished tt).
  { apply io_runs_bind in H as [(a & l1 & l2 & _ & H & _)|[(code & -> & _)|[-> _]]]; try discriminate. apply io_exit_inv in H as [_ ->]. discriminate. }
  destruct e as [[]|code|]; [contradiction| |auto].
  assert (Y : code = 0%Z \/ code = 1%Z).
  { revert H. intros H. eapply exits_runs; [exact H| |reflexivity]. apply exits_bind; [|intros _; left; reflexivity].
    apply exits_bind; [apply check_exits; exact Hc|]. intros [[] st]; cbn [fst snd]; [apply commands_exit; exact Hc|]. leave. }
  destruct Y as [->| ->]; auto.
Qed.

(** A dry run. *)
Lemma dry_says m c q l e : io_runs (print_request m c q) l e -> exists t s, l = [EClock t; EPrint (line s)] /\
  match request_marshal (set_client_fields t c q) with Some (b, _) => s = b | None => told m s end.
Proof.
  unfold print_request. intros H. apply io_clock_inv in H as (t & l' & -> & H). exists t.
  destruct (request_marshal _) as [[b q']|]; apply println_runs in H as [-> _]; eexists; (split; [reflexivity|]); [reflexivity|apply told_of].
Qed.
