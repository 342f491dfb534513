(** Proofs for C85: how long the tool waits. *)
From Coq Require Import QArith Lia Bool ZifyBool ZifyNat ZifyN.
From Verif Require Import GoStr SpecStr GoStrFacts GoNum GoUint Types Enums Records Messages Codec Document Wire Clients Cli SpecAmountText
  SpecCli SpecFlags CliFacts CliRuns FlagFacts CliDetect.
Close Scope Q_scope.

(** Every wait of the program is one of these. *)
Fixpoint sleeps {A} (P : Z -> Prop) (p : io A) : Prop :=
  match p with
  | Return _ | Exit _ | Panic => True
  | Print _ k => sleeps P k
  | Sleep ns k => P ns /\ sleeps P k
  | Clock k => forall x, sleeps P (k x)
  | Rand k => forall x, sleeps P (k x)
  | Prompt k => forall x, sleeps P (k x)
  | Create _ k => forall x, sleeps P (k x)
  | Save _ k => forall x, sleeps P (k x)
  | Send _ k => forall x, sleeps P (k x)
  | Ask _ k => forall x, sleeps P (k x)
  end.

Lemma sleeps_runs A P (p : io A) l e : io_runs p l e -> sleeps P p -> forall ns, In (ESleep ns) l -> P ns.
Proof.
  induction 1; cbn [sleeps]; intros Hs ns' Hin; try contradiction;
    try (destruct Hin as [E|Hin]; [discriminate E|]; eapply IHio_runs; eauto; fail).
  - destruct Hin as [E|Hin]; [injection E as <-; apply Hs|]. eapply IHio_runs; [apply Hs|exact Hin].
  - apply in_app_iff in Hin as [Hin|Hin]; [apply in_map_iff in Hin as (y & E & _); discriminate E|]. eapply IHio_runs; eauto.
  - apply in_app_iff in Hin as [Hin|Hin]; [apply in_map_iff in Hin as (y & E & _); discriminate E|]. eapply IHio_runs; eauto.
Qed.

Lemma sleeps_bind A B P (p : io A) (f : A -> io B) : sleeps P p -> (forall a, sleeps P (f a)) -> sleeps P (bind_io p f).
Proof.
  intros Hp Hf. induction p; cbn [sleeps bind_io] in *; auto. destruct Hp. auto.
Qed.

Lemma sleeps_each A P (l : list A) f : (forall x, sleeps P (f x)) -> sleeps P (each l f).
Proof. intros Hf. induction l as [|x l IH]; cbn [each]; [exact I|]. apply sleeps_bind; auto. Qed.

Lemma sleeps_counting A P (l : list A) f : (forall n x, sleeps P (f n x)) -> forall n, sleeps P (each_counting l n f).
Proof. intros Hf. induction l as [|x l IH]; cbn [each_counting]; intros n; [exact I|]. apply sleeps_bind; auto. Qed.

Ltac awake := repeat first
  [ exact I
  | progress intros
  | apply sleeps_bind
  | apply sleeps_each
  | apply sleeps_counting
  | progress cbn [sleeps println print fst snd]
  | progress cbv zeta
  | match goal with |- sleeps _ (match ?x with _ => _ end) => destruct x end
  | match goal with |- _ /\ _ => split end ].

Lemma print_request_awake m c q P : sleeps P (print_request m c q).
Proof. unfold print_request. awake. Qed.
Lemma finish_awake m what st c q P : sleeps P (finish_download m what st c q).
Proof. unfold finish_download, send. destruct (st_dryrun st); [apply print_request_awake|]. awake. Qed.
Lemma ask_awake m er st c q k P : (forall r, sleeps P (k r)) -> sleeps P (ask_and_check m er st c q k).
Proof. intros Hk. unfold ask_and_check, ask. destruct (st_dryrun st); [apply print_request_awake|]. awake. apply Hk. Qed.
Lemma new_request_awake m st P : sleeps P (new_request m st).
Proof. unfold new_request. destruct (enum_new _ _) as [v [|]]; awake. Qed.
Lemma new_uid_awake m P : sleeps P (new_uid m).
Proof. unfold new_uid. awake. Qed.
Lemma account_type_awake m st P : sleeps P (account_type m st).
Proof. unfold account_type. destruct (enum_new _ _) as [v [|]]; awake. Qed.
Lemma print_transaction_awake cur t P : sleeps P (print_transaction cur t).
Proof. unfold print_transaction. awake. Qed.
Lemma print_cc_transaction_awake cur t P : sleeps P (print_cc_transaction cur t).
Proof. unfold print_cc_transaction. awake. Qed.
Lemma print_bank_awake r P : sleeps P (print_bank r).
Proof. unfold print_bank. awake; apply print_transaction_awake. Qed.
Lemma print_cc_awake r P : sleeps P (print_cc r).
Proof. unfold print_cc. awake; apply print_cc_transaction_awake. Qed.
Lemma print_inv_awake r P : sleeps P (print_inv r).
Proof. unfold print_inv. awake; apply print_transaction_awake. Qed.

Lemma commands_awake c m st P : In c commands -> cmd_name c <> bs "detect-settings" -> sleeps P (cmd_do c m st).
Proof.
  intros H Hn. cbn [In commands] in H. repeat destruct H as [<-|H]; [..|contradiction]; cbn [cmd_do];
    try (destruct (Hn eq_refl); fail);
    unfold download_profile, get_accounts, download_bank, download_cc, download_inv, transactions_bank, transactions_cc, transactions_inv;
    repeat first [apply new_request_awake|apply new_uid_awake|apply account_type_awake|apply finish_awake
      |apply print_bank_awake|apply print_cc_awake|apply print_inv_awake
      |apply sleeps_bind|progress intros|apply ask_awake]; awake.
Qed.

Lemma check_server_awake m st P : sleeps P (check_server_flags m st).
Proof. unfold check_server_flags. awake. Qed.
Lemma check_download_awake m st P : sleeps P (check_download_flags m st).
Proof. unfold check_download_flags. apply sleeps_bind; [apply check_server_awake|]. awake. Qed.

Lemma checks_awake c m st P : In c commands -> sleeps P (cmd_check c m st).
Proof.
  intros H. cbn [In commands] in H. repeat destruct H as [<-|H]; [..|contradiction]; cbn [cmd_check];
    first [apply check_server_awake|apply check_download_awake|unfold check_profile_flags; apply check_download_awake].
Qed.

Lemma try_awake m st id ver version noindent P : sleeps P (try_profile m st id ver version noindent).
Proof.
  unfold try_profile, ask. awake; apply new_uid_awake.
Qed.

Lemma detect_sleeps m st : sleeps (fun ns => ns = duration_ms (st_delay st)) (detect_settings m st).
Proof.
  unfold detect_settings. apply sleeps_bind; [|intros; exact I].
  apply sleeps_counting; intros. apply sleeps_counting; intros. apply sleeps_counting; intros. apply sleeps_counting; intros.
  unfold attempt. apply sleeps_bind; [apply try_awake|]. awake. reflexivity.
Qed.

(** The results of a program. *)
Fixpoint post {A} (Q : A -> Prop) (p : io A) : Prop :=
  match p with
  | Return a => Q a
  | Exit _ | Panic => True
  | Print _ k => post Q k
  | Sleep ns k => post Q k
  | Clock k => forall x, post Q (k x)
  | Rand k => forall x, post Q (k x)
  | Prompt k => forall x, post Q (k x)
  | Create _ k => forall x, post Q (k x)
  | Save _ k => forall x, post Q (k x)
  | Send _ k => forall x, post Q (k x)
  | Ask _ k => forall x, post Q (k x)
  end.

Lemma sleeps_bind_post A B P Q (p : io A) (f : A -> io B) : post Q p -> sleeps P p -> (forall a, Q a -> sleeps P (f a)) -> sleeps P (bind_io p f).
Proof.
  intros Hq Hp Hf. induction p; cbn [sleeps post bind_io] in *; auto. destruct Hp. auto.
Qed.

Lemma check_server_delay m st : post (fun r => st_delay (snd r) = st_delay st) (check_server_flags m st).
Proof.
  unfold check_server_flags, print, println. destruct (is_empty (st_serverURL st)), (is_empty (st_username st)), (is_empty (st_password st));
    cbn [bind_io negb andb post snd]; try reflexivity. intros [p|]; reflexivity.
Qed.

Lemma waits_wrap d ns : ns = duration_ms d -> waits d ns.
Proof. intros ->. apply duration_waits. Qed.

Lemma main_sleeps m name args l e ns : io_runs (main m (name :: args)) l e -> In (ESleep ns) l ->
  name = bs "detect-settings" /\ forall asg d, flag_args args asg -> delay_of asg d -> waits d ns.
Proof.
  intros H Hin. destruct (in_dec str_dec name (map fst command_texts)) as [Hn|Hn].
  - destruct (line_reads name args Hn) as (r & Hr & _). destruct (line_main m name args r Hn Hr) as (c & Hc & E). rewrite E in H.
    destruct (command_named name Hn) as (c' & Hc' & Hcin & Hname). assert (c' = c) as -> by congruence.
    destruct r as [asg| |]; try (apply io_exit_inv in H as [-> _]; contradiction).
    destruct (str_dec name (bs "detect-settings")) as [Hd|Hd].
    + split; [exact Hd|]. intros asg' d Ha Hdel. destruct (line_accepted _ _ _ Hr asg eq_refl) as [Ha' Hall].
      rewrite (flag_args_unique _ _ _ Ha Ha') in Hdel. apply (delay_exact _ _ Hall) in Hdel as ->.
      assert (Ec : cmd_check c = check_server_flags /\ cmd_do c = detect_settings).
      { rewrite Hd in Hc. clear - Hc. apply (f_equal (fun x => match x with Some c => (cmd_check c, cmd_do c) | None => (check_server_flags, detect_settings) end)) in Hc.
        split; [exact (eq_sym (f_equal fst Hc))|exact (eq_sym (f_equal snd Hc))]. }
      destruct Ec as [Eck Edo]. rewrite Eck, Edo in H.
      apply waits_wrap. refine (sleeps_runs _ (fun ns => ns = duration_ms (uint_after (bs "delay") 500 asg)) _ _ _ H _ ns Hin).
      apply sleeps_bind; [|intros; exact I]. eapply sleeps_bind_post; [apply check_server_delay|apply check_server_awake|].
      intros [b st'] Hst. cbn [fst snd] in *. destruct b; [|awake].
      change (uint_after (bs "delay") 500 asg) with (st_delay (settings_after asg defaults)). rewrite <- Hst. apply detect_sleeps.
    + exfalso. refine (sleeps_runs _ (fun _ => False) _ _ _ H _ ns Hin).
      apply sleeps_bind; [|intros; exact I]. apply sleeps_bind; [apply checks_awake; exact Hcin|]. intros x.
      destruct (fst x); [|awake]. apply commands_awake; [exact Hcin|congruence].
  - exfalso. destruct (main_usage m (name :: args) l e) as (Hp & _ & _).
    + intros n r [= <- <-]. exact Hn.
    + exact H.
    + rewrite Forall_forall in Hp. exact (Hp _ Hin).
Qed.

Lemma waits_exact d ns : waits d ns -> (Z.of_N d * 1000000 < 2 ^ 63)%Z -> (ns = Z.of_N d * 1000000)%Z.
Proof. intros [[k ->] H] Hd. change (2 ^ 64)%Z with (2 * 2 ^ 63)%Z in *. lia. Qed.
