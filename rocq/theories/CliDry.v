(** Dry runs show what real runs send. *)
From Coq Require Import QArith Lia Bool ZifyBool ZifyNat ZifyN.
From Verif Require Import GoStr SpecStr GoStrFacts GoNum GoUint GoTime Types Enums EnumTables EnumFacts Records Common Messages Codec Schema
  Document Wire WireFacts Url Clients SpecClients ClientFacts Cli SpecCli CliFacts CliRuns.
Close Scope Q_scope.

(** Quiet programs are determined by what they are told. *)
Lemma quiet_determined A (p : io A) l e : io_runs p l e -> quiet p -> forall l' e', io_runs p l' e' -> inputs l = inputs l' -> l = l' /\ e = e'.
Proof.
  induction 1; cbn [quiet]; intros Hq l' e' H' Hi; try contradiction.
  - apply io_return_inv in H' as [-> ->]. auto.
  - apply io_exit_inv in H' as [-> ->]. auto.
  - apply io_panic_inv in H' as [-> ->]. auto.
  - apply io_print_inv in H' as (l2 & -> & H'). destruct (IHio_runs Hq _ _ H' Hi) as [-> ->]. auto.
  - apply io_sleep_inv in H' as (l2 & -> & H'). destruct (IHio_runs Hq _ _ H' Hi) as [-> ->]. auto.
  - apply io_clock_inv in H' as (y & l2 & -> & H'). cbn in Hi. injection Hi as -> Hi. destruct (IHio_runs (Hq _) _ _ H' Hi) as [-> ->]. auto.
  - apply io_rand_inv in H' as (y & l2 & -> & H'). cbn in Hi. injection Hi as -> Hi. destruct (IHio_runs (Hq _) _ _ H' Hi) as [-> ->]. auto.
  - apply io_prompt_inv in H' as (y & l2 & -> & H'). cbn in Hi. injection Hi as -> Hi. destruct (IHio_runs (Hq _) _ _ H' Hi) as [-> ->]. auto.
Qed.

Lemma inputs_app a b : inputs (a ++ b) = inputs a ++ inputs b.
Proof. apply filter_app. Qed.
Lemma inputs_net tr : inputs (map ENet tr) = [].
Proof. induction tr as [|x tr IH]; [reflexivity|]. exact IH. Qed.

(** [shows_sent p p']: whatever [p'] sends, [p] prints, if it is told the same. *)
Definition shows_sent (p p' : io unit) : Prop := forall l' e', io_runs p' l' e' -> network l' <> [] ->
  exists l1 t b, io_runs p (l1 ++ [EClock t; EPrint (b ++ [chr 10])]) (Finished tt) /\
    inputs l' = inputs (l1 ++ [EClock t; EPrint (b ++ [chr 10])]) /\ carries (network l') (eq b).

Lemma shows_bind A (x : io A) (f f' : A -> io unit) : quiet x -> (forall a, shows_sent (f a) (f' a)) -> shows_sent (bind_io x f) (bind_io x f').
Proof.
  intros Hq Hf l' e' H Hn. apply io_runs_bind in H as [(a & l1 & l2 & H1 & H & ->)|[(code & -> & H)|[-> H]]].
  - rewrite network_app, (local_network _ (quiet_runs _ _ _ _ H1 Hq)) in Hn |- *. cbn [app] in *.
    destruct (Hf a l2 e' H Hn) as (l3 & t & b & Hr & Hi & Hc). exists (l1 ++ l3), t, b. rewrite <- app_assoc. split; [|split; [|exact Hc]].
    + eapply io_runs_bind_make; eauto.
    + rewrite !(inputs_app l1), Hi. reflexivity.
  - exfalso. apply Hn. apply local_network. eapply quiet_runs; eauto.
  - exfalso. apply Hn. apply local_network. eapply quiet_runs; eauto.
Qed.

Lemma shows_quiet p p' : quiet p' -> shows_sent p p'.
Proof. intros Hq l' e' H Hn. exfalso. apply Hn. apply local_network. eapply quiet_runs; eauto. Qed.

Lemma shows_print s p p' : shows_sent p p' -> shows_sent (Print s p) (Print s p').
Proof. intros H. apply (shows_bind _ (print s) (fun _ => p) (fun _ => p')); [exact I|auto]. Qed.
Lemma shows_prompt k k' : (forall a, shows_sent (k a) (k' a)) -> shows_sent (Prompt k) (Prompt k').
Proof. intros H. apply (shows_bind _ (Prompt (fun a => Return a)) k k'); [cbn; auto|exact H]. Qed.

(** The bytes of one request. *)
Lemma shows_request m c q (rest : outcome -> io unit) :
  (forall o l e, io_runs (rest o) l e -> network l = [] /\ inputs l = []) ->
  shows_sent (print_request m c q) (bind_io (send m c q) rest).
Proof.
  intros Hrest l' e' H Hn. apply io_runs_bind in H as [(x & l1 & l2 & H1 & H & ->)|[(c0 & -> & H1)|[-> H1]]];
    apply send_runs in H1 as (t & tr & y & E & E2 & Hr); try discriminate.
  subst l1. destruct y as [o q']. apply Hrest in H as [Hn2 Hi2]. rewrite network_app, Hn2, app_nil_r in Hn |- *.
  change (network (EClock t :: map ENet tr)) with (network (map ENet tr)) in *. rewrite network_net in *.
  apply no_parse_bytes in Hr. change (w_now (world_at m t)) with t in Hr.
  destruct (request_marshal (set_client_fields t c q)) as [[b q2]|] eqn:Em; [|exfalso; apply Hn; tauto].
  exists [], t, b. split; [|split; [|apply Hr]].
  - unfold print_request. cbn [app]. apply ir_clock. rewrite Em. apply ir_print. constructor.
  - rewrite inputs_app, Hi2. cbn. f_equal. rewrite app_nil_r. apply inputs_net.
Qed.

Lemma shows_ask m c q (rest : _ -> io unit) :
  (forall o tr q' l e, (o = (o : option Response * option goerr)) -> io_runs (rest (o, q')) l e ->
     ((exists r, o = (Some r, None) /\ answered (m_env m) tr r) \/ exists err, o = (None, Some err)) -> network l = [] /\ inputs l = []) ->
  shows_sent (print_request m c q) (bind_io (ask m c q) rest).
Proof.
  intros Hrest l' e' H Hn. apply io_runs_bind in H as [(x & l1 & l2 & H1 & H & ->)|[(c0 & -> & H1)|[-> H1]]];
    apply ask_runs in H1 as (t & tr & y & E & E2 & Hr); try discriminate.
  subst l1. injection E2 as ->. destruct y as [o q'].
  assert (Ho : (exists r, o = (Some r, None) /\ answered (m_env m) tr r) \/ exists err, o = (None, Some err)).
  { destruct (client_request_answer _ _ _ _ _ _ _ Hr) as [(r & -> & Ha)|(err & -> & _)]; eauto. }
  apply (Hrest o tr q') in H as [Hn2 Hi2]; [|reflexivity|exact Ho]. rewrite network_app, Hn2, app_nil_r in Hn |- *.
  change (network (EClock t :: map ENet tr)) with (network (map ENet tr)) in *. rewrite network_net in *.
  apply client_request_runs in Hr as (o' & Hr & _). apply no_parse_bytes in Hr. change (w_now (world_at m t)) with t in Hr.
  destruct (request_marshal (set_client_fields t c q)) as [[b q2]|] eqn:Em; [|exfalso; apply Hn; tauto].
  exists [], t, b. split; [|split; [|apply Hr]].
  - unfold print_request. cbn [app]. apply ir_clock. rewrite Em. apply ir_print. constructor.
  - rewrite inputs_app, Hi2. cbn. f_equal. rewrite app_nil_r. apply inputs_net.
Qed.

Lemma finish_shows m what st c q : st_dryrun st = false ->
  shows_sent (finish_download m what (set_dryrun true st) c q) (finish_download m what st c q).
Proof.
  intros Hd. unfold finish_download. rewrite Hd. cbn [st_dryrun set_dryrun]. apply shows_request. intros o l e H.
  assert (Hx : forall s, io_runs (println s ~; Exit 1) l e -> network l = [] /\ inputs l = []).
  { intros s H'. apply println_exit in H' as [-> _]. split; reflexivity. }
  destruct o as [[rp|] [err|]]; [eapply Hx; exact H| |eapply Hx; exact H|].
  - apply io_create_inv in H as ([] & l3 & -> & H); cbn [negb] in H.
    + apply io_save_inv in H as ([] & l4 & -> & H); cbn [negb] in H; [apply io_return_inv in H as [-> _]|apply println_exit in H as [-> _]]; split; reflexivity.
    + apply println_exit in H as [-> _]. split; reflexivity.
  - apply io_panic_inv in H as [-> _]. split; reflexivity.
Qed.

(** Printing reads nothing. *)
Fixpoint silent {A} (p : io A) : Prop :=
  match p with
  | Return _ | Exit _ | Panic => True
  | Print _ k | Sleep _ k => silent k
  | _ => False
  end.
Lemma silent_runs A (p : io A) l e : io_runs p l e -> silent p -> network l = [] /\ inputs l = [].
Proof. induction 1; cbn [silent]; intros Hs; try contradiction; auto. Qed.
Lemma silent_bind A B (p : io A) (f : A -> io B) : silent p -> (forall a, silent (f a)) -> silent (bind_io p f).
Proof. induction p; cbn [silent bind_io]; auto; contradiction. Qed.
Lemma silent_each A (l : list A) f : (forall x, silent (f x)) -> silent (each l f).
Proof. intros H. induction l as [|x l IH]; cbn [each]; [exact I|]. apply silent_bind; auto. Qed.

Lemma shows_silent r : silent (print_accounts r) /\ silent (print_bank r) /\ silent (print_cc r) /\ silent (print_inv r).
Proof.
  split; [|split; [|split]].
  - unfold print_accounts, println, print. destruct (sl_signup _) as [|x xs]; [exact I|]. cbn [bind_io silent].
    destruct x; try exact I. apply silent_each. intros; exact I.
  - unfold print_bank, println, print. destruct (sl_bank _) as [|x xs]; [exact I|]. destruct x; try exact I. cbn [bind_io silent].
    destruct (StatementResponse_BankTranList _); [|exact I]. apply silent_each. intros ?; exact I.
  - unfold print_cc, println, print. destruct (sl_creditcard _) as [|x xs]; [exact I|]. destruct x; try exact I. cbn [bind_io silent].
    destruct (CCStatementResponse_BankTranList _); [|exact I]. apply silent_each. intros x0. unfold print_cc_transaction.
    destruct (is_empty _); [destruct (Transaction_Payee x0)|]; exact I.
  - unfold print_inv, println, print. destruct (sl_invstmt _) as [|x xs]; [exact I|]. destruct x; try exact I. cbv zeta.
    destruct (InvStatementResponse_InvBal _); [|exact I]. apply silent_bind; [destruct (_ && _); exact I|]. intros _.
    destruct (InvStatementResponse_InvTranList _); [|exact I]. apply silent_bind; [apply silent_each; intros ?; cbn [bind_io silent]; apply silent_each; intros ?; exact I|].
    intros _. cbn [bind_io silent]. apply silent_each. intros; exact I.
Qed.

Lemma ask_shows m error st c q k : st_dryrun st = false -> (forall r, silent (k r)) ->
  shows_sent (ask_and_check m error (set_dryrun true st) c q k) (ask_and_check m error st c q k).
Proof.
  intros Hd Hk. unfold ask_and_check. rewrite Hd. cbn [st_dryrun set_dryrun]. apply shows_ask. intros o tr q' l e _ H _. cbn [fst] in H.
  destruct o as [[r|] [err|]].
  - destruct error; [apply println_exit in H as [-> _]|apply io_exit_inv in H as [-> _]]; split; reflexivity.
  - cbv zeta in H. destruct (_ =? 0)%Z; [eapply silent_runs; eauto|]. apply print_then in H as (l' & -> & H). apply io_exit_inv in H as [-> _]. split; reflexivity.
  - destruct error; [apply println_exit in H as [-> _]|apply io_exit_inv in H as [-> _]]; split; reflexivity.
  - apply io_panic_inv in H as [-> _]. split; reflexivity.
Qed.

Lemma do_shows cmd m st : In cmd commands -> cmd_name cmd <> bs "detect-settings" -> st_dryrun st = false ->
  shows_sent (cmd_do cmd m (set_dryrun true st)) (cmd_do cmd m st).
Proof.
  intros Hc Hn Hd. cbn [In commands] in Hc.
  repeat destruct Hc as [<-|Hc]; [..|contradiction]; cbn [cmd_do cmd_name] in *; try (exfalso; apply Hn; reflexivity);
    unfold download_profile, get_accounts, download_bank, download_cc, download_inv, transactions_bank, transactions_cc, transactions_inv;
    change (new_request m (set_dryrun true st)) with (new_request m st);
    try change (account_type m (set_dryrun true st)) with (account_type m st);
    (apply shows_bind; [apply new_request_quiet|]; intros cq);
    try (apply shows_bind; [apply account_type_quiet|]; intros t);
    (apply shows_bind; [apply new_uid_quiet|]; intros uid).
  all: first [apply finish_shows; exact Hd | apply ask_shows; [exact Hd|intros r; apply (shows_silent r)]].
Qed.

Lemma check_server_shows m st (g g' : bool * settings -> io unit) :
  (forall ok s, st_dryrun s = st_dryrun st -> shows_sent (g (ok, set_dryrun true s)) (g' (ok, s))) ->
  shows_sent (bind_io (check_server_flags m (set_dryrun true st)) g) (bind_io (check_server_flags m st) g').
Proof.
  intros Hg. unfold check_server_flags, println, print.
  change (st_serverURL (set_dryrun true st)) with (st_serverURL st). change (st_username (set_dryrun true st)) with (st_username st).
  change (st_password (set_dryrun true st)) with (st_password st).
  destruct (is_empty (st_serverURL st)), (is_empty (st_username st)); cbn [bind_io negb andb]; repeat apply shows_print; try (apply Hg; reflexivity).
  destruct (is_empty (st_password st)); cbn [bind_io]; [|apply Hg; reflexivity]. apply shows_print, shows_prompt. intros [p|].
  - cbn [bind_io]. apply (Hg true (set_password p st)). reflexivity.
  - cbn [bind_io]. apply shows_print. apply Hg. reflexivity.
Qed.

Lemma bind_assoc_runs A B C (p : io A) (f : A -> io B) (g : B -> io C) l e :
  io_runs (bind_io (bind_io p f) g) l e <-> io_runs (bind_io p (fun a => bind_io (f a) g)) l e.
Proof.
  split; intros H.
  - revert l e H. induction p as [a|c| |s k IH|n k IH|k IH|k IH|k IH|n k IH|b k IH|p k IH|p k IH]; cbn [bind_io]; intros l e H; auto.
    + apply io_print_inv in H as (l' & -> & H). constructor. auto.
    + apply io_sleep_inv in H as (l' & -> & H). constructor. auto.
    + apply io_clock_inv in H as (x & l' & -> & H). constructor. auto.
    + apply io_rand_inv in H as (x & l' & -> & H). constructor. auto.
    + apply io_prompt_inv in H as (x & l' & -> & H). constructor. auto.
    + apply io_create_inv in H as (x & l' & -> & H). constructor. auto.
    + apply io_save_inv in H as (x & l' & -> & H). constructor. auto.
    + apply io_send_inv in H as (tr & x & l' & -> & Hr & H). econstructor; eauto.
    + apply io_ask_inv in H as (tr & x & l' & -> & Hr & H). econstructor; eauto.
  - revert l e H. induction p as [a|c| |s k IH|n k IH|k IH|k IH|k IH|n k IH|b k IH|p k IH|p k IH]; cbn [bind_io]; intros l e H; auto.
    + apply io_print_inv in H as (l' & -> & H). constructor. auto.
    + apply io_sleep_inv in H as (l' & -> & H). constructor. auto.
    + apply io_clock_inv in H as (x & l' & -> & H). constructor. auto.
    + apply io_rand_inv in H as (x & l' & -> & H). constructor. auto.
    + apply io_prompt_inv in H as (x & l' & -> & H). constructor. auto.
    + apply io_create_inv in H as (x & l' & -> & H). constructor. auto.
    + apply io_save_inv in H as (x & l' & -> & H). constructor. auto.
    + apply io_send_inv in H as (tr & x & l' & -> & Hr & H). econstructor; eauto.
    + apply io_ask_inv in H as (tr & x & l' & -> & Hr & H). econstructor; eauto.
Qed.

Lemma shows_same p p' q q' : (forall l e, io_runs p l e <-> io_runs q l e) -> (forall l e, io_runs p' l e <-> io_runs q' l e) ->
  shows_sent q q' -> shows_sent p p'.
Proof.
  intros H H' Hs l' e' Hr Hn. apply H' in Hr. destruct (Hs l' e' Hr Hn) as (l1 & t & b & Hp & Hi & Hc). apply H in Hp. eauto 6.
Qed.

Lemma check_download_shows m st (g g' : bool * settings -> io unit) :
  (forall ok s, st_dryrun s = st_dryrun st -> shows_sent (g (ok, set_dryrun true s)) (g' (ok, s))) ->
  shows_sent (bind_io (check_download_flags m (set_dryrun true st)) g) (bind_io (check_download_flags m st) g').
Proof.
  intros Hg. unfold check_download_flags, println. eapply shows_same; [intros; apply bind_assoc_runs|intros; apply bind_assoc_runs|].
  apply check_server_shows. intros ok s Hs. cbn [snd]. change (st_filename (set_dryrun true s)) with (st_filename s).
  destruct (is_empty (st_filename s)); cbn [bind_io]; [apply shows_print|]; apply Hg; exact Hs.
Qed.

Lemma check_shows cmd m st (g g' : bool * settings -> io unit) : In cmd commands ->
  (forall ok s, st_dryrun s = st_dryrun st -> shows_sent (g (ok, set_dryrun true s)) (g' (ok, s))) ->
  shows_sent (bind_io (cmd_check cmd m (set_dryrun true st)) g) (bind_io (cmd_check cmd m st) g').
Proof.
  intros Hc Hg. cbn [In commands] in Hc. repeat destruct Hc as [<-|Hc]; [..|contradiction]; cbn [cmd_check];
    try (apply check_server_shows; exact Hg); try (apply check_download_shows; exact Hg).
  unfold check_profile_flags. change (st_username (set_dryrun true st)) with (st_username st).
  destruct (is_empty (st_username st)); [|apply check_download_shows; exact Hg].
  exact (check_download_shows m (set_password anonymous (set_username anonymous st)) g g' Hg).
Qed.

(** Whether flags can be read does not depend on the settings. *)
Lemma parse_independent fl args : forall fuel st st1, parse_flags_fuel fuel fl st args = Return st1 ->
  forall st', exists st1', parse_flags_fuel fuel fl st' args = Return st1'.
Proof.
  intros fuel. revert args. induction fuel as [|fuel IH]; intros args st st1; cbn [parse_flags_fuel]; [eauto|]. intros H st'.
  assert (Hp : match parse_one fl st args, parse_one fl st' args with
               | FDone _, FDone _ => True | FMore _ a, FMore _ b => a = b | FHelp, FHelp => True | FError, FError => True | _, _ => False end).
  { clear. unfold parse_one. destruct args as [|[|c [|d s]] rest]; try exact I. destruct (negb _); [exact I|]. cbv zeta.
    destruct (_ && _); [exact I|]. destruct (if Ascii.eqb d "-" then _ else _) as [|x r]; [exact I|]. destruct (_ || _); [exact I|].
    destruct (split_flag _) as [n v]. unfold use_flag. destruct (find_flag n fl) as [f|]; [|destruct (_ || _); exact I]. cbv zeta.
    destruct f; destruct v as [v|]; destruct rest as [|y rest]; unfold set_flag;
      try destruct (parse_bool _); try destruct (parse_uint64 _); try exact I; reflexivity. }
  destruct (parse_one fl st args) as [s1|s1 a1| |], (parse_one fl st' args) as [s2|s2 a2| |]; try contradiction; try discriminate; eauto.
  subst a2. eapply IH; eauto.
Qed.

Lemma bool_after_other n d l : ~ In n (map fst l) -> bool_after n d l = d.
Proof.
  unfold bool_after. revert d. induction l as [|[k v] l IH]; intros d Hn; [reflexivity|].
  cbn [fold_left map fst snd] in *. destruct (str_eqb k n) eqn:E; [|apply IH; intros H; apply Hn; right; exact H].
  apply str_eqb_eq in E as ->. exfalso. apply Hn. left. reflexivity.
Qed.
Lemma dry_settings asg st : ~ In (bs "dryrun") (map fst asg) -> settings_after asg (set_dryrun true st) = set_dryrun true (settings_after asg st).
Proof.
  intros Hn. unfold settings_after. rewrite !(bool_after_other _ _ _ Hn). reflexivity.
Qed.
Lemma undry_settings asg st : ~ In (bs "dryrun") (map fst asg) -> st_dryrun (settings_after asg st) = st_dryrun st.
Proof. intros Hn. unfold settings_after. cbn [st_dryrun]. apply bool_after_other. exact Hn. Qed.

Lemma run_cmd_shows m cmd args asg : In cmd commands -> cmd_name cmd <> bs "detect-settings" -> flag_args args asg -> ~ In (bs "dryrun") (map fst asg) ->
  shows_sent (run_cmd m cmd (bs "-dryrun" :: args)) (run_cmd m cmd args).
Proof.
  intros Hc Hn Ha Hd. unfold run_cmd, parse_flags.
  pose proof (parse_flags_after (cmd_flags cmd) args asg (command_tables _ Hc) (command_tables_in _ Hc) Ha (S (length args))) as Hp.
  destruct (Hp defaults) as [[c E]|E]; [lia|rewrite E; apply shows_quiet; exact I|]. rewrite E. cbn [bind_io].
  assert (E' : parse_flags_fuel (S (length (bs "-dryrun" :: args))) (cmd_flags cmd) defaults (bs "-dryrun" :: args) =
               Return (set_dryrun true (settings_after asg defaults))).
  { destruct (parse_independent _ _ _ _ _ E (set_dryrun true defaults)) as [st1 E1].
    transitivity (parse_flags_fuel (S (length args)) (cmd_flags cmd) (set_dryrun true defaults) args).
    - assert (P : parse_one (cmd_flags cmd) defaults (bs "-dryrun" :: args) = FMore (set_dryrun true defaults) args).
      { cbn [In commands] in Hc. repeat destruct Hc as [<-|Hc]; [..|contradiction]; try (exfalso; apply Hn; reflexivity); reflexivity. }
      cbn [length]. remember (S (length args)) as k. cbn [parse_flags_fuel]. rewrite P. reflexivity.
    - destruct (Hp (set_dryrun true defaults)) as [[c E2]|E2]; [lia|congruence|]. rewrite E2, dry_settings by exact Hd. reflexivity. }
  rewrite E'. cbn [bind_io]. apply check_shows; [exact Hc|]. intros ok s Hs. cbn [fst snd]. destruct ok.
  - apply do_shows; [exact Hc|exact Hn|]. rewrite Hs. rewrite undry_settings by exact Hd. reflexivity.
  - apply shows_quiet. exact I.
Qed.

Lemma main_shows m name args asg l e l' e' : In name (downloads ++ queries) -> flag_args args asg -> ~ In (bs "dryrun") (map fst asg) ->
  io_runs (main m (name :: args)) l' e' -> network l' <> [] ->
  io_runs (main m (name :: bs "-dryrun" :: args)) l e -> inputs l = inputs l' ->
  e = Exited 0 /\ exists l1 t b, l = l1 ++ [EClock t; EPrint (b ++ [chr 10])] /\ carries (network l') (eq b).
Proof.
  intros Hname Ha Hd Hr Hn Hdry Hi. destruct (find_command_of name Hname) as (cmd & Hf & Hin & Hcn & Hnd & _).
  assert (Hq : quiet (main m (name :: bs "-dryrun" :: args))).
  { eapply main_dry with (asg := (bs "dryrun", bs "true") :: asg) (v := bs "true").
    - apply (fa_switch (bs "-") (bs "dryrun")); [left; reflexivity| |right; right; left; reflexivity|exact Ha].
      split; [discriminate|]. split; [discriminate|]. cbn. intuition discriminate.
    - exists [], asg. auto.
    - cbn. tauto. }
  assert (Hs : exists e2, io_runs (run_cmd m cmd args) l' e2).
  { unfold main in Hr. rewrite Hf in Hr. apply io_runs_bind in Hr as [([] & l1 & l2 & H1 & H & ->)|[(code & -> & H)|[-> H]]]; eauto.
    apply io_exit_inv in H as [-> _]. rewrite app_nil_r. eauto. }
  destruct Hs as [e2 Hs]. rewrite <- Hcn in Hnd.
  destruct (run_cmd_shows m cmd args asg Hin Hnd Ha Hd l' e2 Hs Hn) as (l1 & t & b & Hrun & Hi' & Hc).
  assert (Hmain : io_runs (main m (name :: bs "-dryrun" :: args)) (l1 ++ [EClock t; EPrint (b ++ [chr 10])]) (Exited 0)).
  { unfold main. rewrite Hf. replace (l1 ++ [EClock t; EPrint (b ++ [chr 10])]) with ((l1 ++ [EClock t; EPrint (b ++ [chr 10])]) ++ []) by apply app_nil_r.
    eapply io_runs_bind_make; [exact Hrun|]. constructor. }
  destruct (quiet_determined _ _ _ _ Hdry Hq _ _ Hmain) as [-> ->]; [congruence|]. split; [reflexivity|]. eauto.
Qed.
