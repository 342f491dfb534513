(** The command line tool and the password. *)
From Coq Require Import QArith Lia Bool.
From Verif Require Import GoStr SpecStr GoStrFacts GoNum GoUint GoTime Types Enums EnumTables Records Common Messages Codec Schema Document SpecDocument Wire
  Url Clients SpecClients Cli SpecCli CliFacts CliRuns SpecSecret SecretFacts.
Close Scope Q_scope.
Close Scope string_scope.
Open Scope list_scope.

(** ** Programs *)

Definition answer_alike (p p' : str) (a a' : option str) : Prop := a = a' \/ a = Some p /\ a' = Some p'.

Inductive io_alike (p p' : str) {A} (R : A -> A -> Prop) : io A -> io A -> Prop :=
| ia_return a a' : R a a' -> io_alike p p' R (Return a) (Return a')
| ia_exit c : io_alike p p' R (Exit c) (Exit c)
| ia_panic : io_alike p p' R Panic Panic
| ia_print s k k' : io_alike p p' R k k' -> io_alike p p' R (Print s k) (Print s k')
| ia_sleep n k k' : io_alike p p' R k k' -> io_alike p p' R (Sleep n k) (Sleep n k')
| ia_clock k k' : (forall x, io_alike p p' R (k x) (k' x)) -> io_alike p p' R (Clock k) (Clock k')
| ia_rand k k' : (forall x, io_alike p p' R (k x) (k' x)) -> io_alike p p' R (Rand k) (Rand k')
| ia_prompt k k' : (forall x x', answer_alike p p' x x' -> io_alike p p' R (k x) (k' x')) -> io_alike p p' R (Prompt k) (Prompt k')
| ia_create n k k' : (forall x, io_alike p p' R (k x) (k' x)) -> io_alike p p' R (Create n k) (Create n k')
| ia_save b k k' : (forall x, io_alike p p' R (k x) (k' x)) -> io_alike p p' R (Save b k) (Save b k')
| ia_send P P' k k' : net_alike p p' (outcome_alike p p') P P' ->
    (forall x x', outcome_alike p p' x x' -> io_alike p p' R (k x) (k' x')) -> io_alike p p' R (Send P k) (Send P' k')
| ia_ask P P' k k' : net_alike p p' (outcome_alike p p') P P' ->
    (forall x x', outcome_alike p p' x x' -> io_alike p p' R (k x) (k' x')) -> io_alike p p' R (Ask P k) (Ask P' k').

Definition ended_alike {A} (R : A -> A -> Prop) (e e' : ended A) : Prop :=
  match e, e' with
  | Finished a, Finished a' => R a a'
  | Exited c, Exited c' => c = c'
  | Crashed, Crashed => True
  | _, _ => False
  end.

Lemma net_events p p' tr tr' : Forall2 (sent_alike p p') tr tr' -> Forall2 (done_alike p p') (map ENet tr) (map ENet tr').
Proof. induction 1; cbn [map]; constructor; [constructor; assumption|assumption]. Qed.

Ltac same_event := apply da_same; intros; discriminate.

Lemma io_alike_runs p p' A (R : A -> A -> Prop) P P' : io_alike p p' R P P' -> forall l e, io_runs P l e ->
  exists l' e', io_runs P' l' e' /\ Forall2 (done_alike p p') l l' /\ ended_alike R e e'.
Proof.
  intros H.
  induction H as [a a' Ha|c| |s k k' _ IH|n k k' _ IH|k k' _ IH|k k' _ IH|k k' _ IH|n k k' _ IH|b k k' _ IH|P P' k k' HP _ IH|P P' k k' HP _ IH];
    intros l e Hr; inversion Hr; subst.
  - exists [], (Finished a'). split; [constructor|]. split; [constructor|exact Ha].
  - exists [], (Exited c). split; [constructor|]. split; [constructor|reflexivity].
  - exists [], Crashed. split; [constructor|]. split; [constructor|exact I].
  - match goal with X : io_runs k _ _ |- _ => destruct (IH _ _ X) as (l' & e' & G1 & G2 & G3) end.
    exists (EPrint s :: l'), e'. split; [constructor; exact G1|]. split; [constructor; [same_event|exact G2]|exact G3].
  - match goal with X : io_runs k _ _ |- _ => destruct (IH _ _ X) as (l' & e' & G1 & G2 & G3) end.
    exists (ESleep n :: l'), e'. split; [constructor; exact G1|]. split; [constructor; [same_event|exact G2]|exact G3].
  - match goal with X : io_runs (k ?y) _ _ |- _ => destruct (IH _ _ _ X) as (l' & e' & G1 & G2 & G3); exists (EClock y :: l'), e' end.
    split; [constructor; exact G1|]. split; [constructor; [same_event|exact G2]|exact G3].
  - match goal with X : io_runs (k ?y) _ _ |- _ => destruct (IH _ _ _ X) as (l' & e' & G1 & G2 & G3); exists (ERand y :: l'), e' end.
    split; [constructor; exact G1|]. split; [constructor; [same_event|exact G2]|exact G3].
  - match goal with X : io_runs (k ?y) _ _ |- _ => rename X into Hk; rename y into a end.
    assert (D : a = Some p \/ a <> Some p).
    { destruct a as [a|]; [|right; discriminate]. destruct (str_eqb a p) eqn:E; [apply str_eqb_eq in E as ->; auto|].
      right. intros [= ->]. rewrite (proj2 (str_eqb_eq _ _) eq_refl) in E. discriminate. }
    destruct D as [->|D].
    + destruct (IH (Some p) (Some p') (or_intror (conj eq_refl eq_refl)) _ _ Hk) as (l' & e' & G1 & G2 & G3).
      exists (EPrompt (Some p') :: l'), e'. split; [constructor; exact G1|]. split; [constructor; [apply da_prompt|exact G2]|exact G3].
    + destruct (IH a a (or_introl eq_refl) _ _ Hk) as (l' & e' & G1 & G2 & G3).
      exists (EPrompt a :: l'), e'. split; [constructor; exact G1|]. split; [constructor; [apply da_answer; exact D|exact G2]|exact G3].
  - match goal with X : io_runs (k ?y) _ _ |- _ => destruct (IH _ _ _ X) as (l' & e' & G1 & G2 & G3); exists (ECreate n y :: l'), e' end.
    split; [constructor; exact G1|]. split; [constructor; [same_event|exact G2]|exact G3].
  - match goal with X : io_runs (k ?y) _ _ |- _ => destruct (IH _ _ _ X) as (l' & e' & G1 & G2 & G3); exists (ESave b y :: l'), e' end.
    split; [constructor; exact G1|]. split; [constructor; [same_event|exact G2]|exact G3].
  - match goal with X : runs P _ _, Y : io_runs (k _) _ _ |- _ =>
      destruct (net_alike_runs _ _ _ _ _ _ HP _ _ X) as (tr' & x' & T1 & T2 & T3); destruct (IH _ _ T3 _ _ Y) as (l' & e' & G1 & G2 & G3) end.
    exists (map ENet tr' ++ l'), e'. split; [econstructor; eassumption|]. split; [apply Forall2_app; [apply net_events; exact T2|exact G2]|exact G3].
  - match goal with X : runs P _ _, Y : io_runs (k _) _ _ |- _ =>
      destruct (net_alike_runs _ _ _ _ _ _ HP _ _ X) as (tr' & x' & T1 & T2 & T3); destruct (IH _ _ T3 _ _ Y) as (l' & e' & G1 & G2 & G3) end.
    exists (map ENet tr' ++ l'), e'. split; [econstructor; eassumption|]. split; [apply Forall2_app; [apply net_events; exact T2|exact G2]|exact G3].
Qed.

Lemma io_alike_bind p p' A B (R : A -> A -> Prop) (S : B -> B -> Prop) P P' f f' :
  io_alike p p' R P P' -> (forall x x', R x x' -> io_alike p p' S (f x) (f' x')) -> io_alike p p' S (bind_io P f) (bind_io P' f').
Proof. intros H Hf. induction H; cbn [bind_io]; [apply Hf; assumption|..]; econstructor; eauto. Qed.

Lemma print_alike p p' s : io_alike p p' eq (print s) (print s).
Proof. constructor. constructor. reflexivity. Qed.
Lemma println_alike p p' s : io_alike p p' eq (println s) (println s).
Proof. constructor. constructor. reflexivity. Qed.
Lemma print_then p p' A (R : A -> A -> Prop) s P P' : io_alike p p' R P P' -> io_alike p p' R (print s ~; P) (print s ~; P').
Proof. intros H. cbn [print bind_io]. constructor. exact H. Qed.
Lemma println_then p p' A (R : A -> A -> Prop) s P P' : io_alike p p' R P P' -> io_alike p p' R (println s ~; P) (println s ~; P').
Proof. intros H. cbn [println bind_io]. constructor. exact H. Qed.
Lemma each_alike p p' A (l : list A) f : (forall x, io_alike p p' eq (f x) (f x)) -> io_alike p p' eq (each l f) (each l f).
Proof.
  intros H. induction l as [|x l IH]; cbn [each]; [constructor; reflexivity|]. eapply io_alike_bind; [apply H|]. intros _ _ _. exact IH.
Qed.
Lemma counting_alike p p' A (l : list A) f f' : (forall n x, io_alike p p' eq (f n x) (f' n x)) ->
  forall n, io_alike p p' eq (each_counting l n f) (each_counting l n f').
Proof.
  intros H. induction l as [|x l IH]; intros n; cbn [each_counting]; [constructor; reflexivity|].
  eapply io_alike_bind; [apply H|]. intros a a' <-. apply IH.
Qed.

(** ** Settings *)

Definition settings_alike (p p' : str) (st st' : settings) : Prop :=
  st = st' \/ st_password st = p /\ st' = set_password p' st.

Lemma set_password_same st : set_password (st_password st) st = st.
Proof. destruct st. reflexivity. Qed.

Lemma settings_password p p' st x : settings_alike p p' (set_password p st) (set_password p' st) /\ settings_alike p p' (set_password x st) (set_password x st).
Proof. split; [right; split; reflexivity|left; reflexivity]. Qed.

(** All flags but the password. *)
Lemma set_flag_alike p p' fl n f v st st' : table_in fl -> find_flag n fl = Some f -> n <> bs "password" -> settings_alike p p' st st' ->
  match set_flag f v st, set_flag f v st' with
  | Some s, Some s' => settings_alike p p' s s'
  | None, None => True
  | _, _ => False
  end.
Proof.
  intros Ht Hf Hn [<-|[E ->]]; [destruct (set_flag f v st); [left; reflexivity|exact I]|].
  apply find_flag_in in Hf. apply Ht in Hf. unfold all_flags in Hf. cbn [In app server_flags] in Hf. unfold settings_alike.
  repeat destruct Hf as [Hf|Hf]; [..|contradiction]; injection Hf as <- <-; cbn [set_flag];
    try (exfalso; apply Hn; reflexivity);
    try destruct (parse_bool v); try destruct (parse_uint64 v); try exact I;
    right; split; try exact E; reflexivity.
Qed.

Lemma set_password_alike p p' fl f v v' st st' : table_in fl -> find_flag (bs "password") fl = Some f ->
  v = v' \/ v = p /\ v' = p' -> settings_alike p p' st st' ->
  exists s s', set_flag f v st = Some s /\ set_flag f v' st' = Some s' /\ settings_alike p p' s s'.
Proof.
  intros Ht Hf Hv Hst. apply find_flag_in in Hf. apply Ht in Hf.
  assert (f = FString set_password).
  { unfold all_flags in Hf. cbn [In app server_flags] in Hf.
    repeat destruct Hf as [Hf|Hf]; [..|contradiction]; injection Hf as Hf; try discriminate. congruence. }
  subst f. cbn [set_flag]. exists (set_password v st), (set_password v' st'). split; [reflexivity|]. split; [reflexivity|].
  assert (Es : set_password v' st' = set_password v' st) by (destruct Hst as [<-|[_ ->]]; reflexivity). rewrite Es.
  destruct Hv as [<-|[-> ->]]; [left; reflexivity|right; split; reflexivity].
Qed.

(** Reading the assignments one after the other. *)
Fixpoint apply_flags (fl : flags) (asg : list (str * str)) (st : settings) : io settings :=
  match asg with
  | [] => Return st
  | (n, v) :: asg =>
      match find_flag n fl with
      | None => if str_eqb n (bs "help") || str_eqb n (bs "h") then Exit 0 else Exit 2
      | Some f => match set_flag f v st with Some st' => apply_flags fl asg st' | None => Exit 2 end
      end
  end.

Lemma parse_applies fl args asg : table_ok fl -> flag_args args asg -> forall fuel st, length args < fuel ->
  parse_flags_fuel fuel fl st args = apply_flags fl asg st.
Proof.
  intros Ht Ha. induction Ha as [|s rest Hs|d n v rest l Hd Hn Ha IH|d n rest l Hd Hn Hs Ha IH|d n v rest l Hd Hn Hs Ha IH];
    intros fuel st Hf; (destruct fuel as [|fuel]; [lia|]); cbn [length] in Hf; cbn [parse_flags_fuel apply_flags].
  - reflexivity.
  - rewrite parse_one_other by exact Hs. reflexivity.
  - rewrite parse_one_flag by (auto; right; reflexivity). rewrite split_flag_equals by exact Hn. cbn [fst snd]. unfold use_flag.
    destruct (find_flag n fl) as [f|] eqn:E; [|destruct (_ || _); reflexivity]. cbv zeta.
    destruct f as [f|f|f]; cbv iota; (destruct (set_flag _ v st) as [st'|]; [apply IH; lia|reflexivity]).
  - replace (d ++ n) with (d ++ n ++ []) by (rewrite app_nil_r; reflexivity). rewrite parse_one_flag by auto. rewrite app_nil_r, split_flag_plain by exact Hn. cbn [fst snd].
    unfold use_flag. destruct (find_flag n fl) as [f|] eqn:E; [|destruct (_ || _); reflexivity]. cbv zeta.
    apply find_flag_in in E. unfold table_ok in Ht. rewrite Forall_forall in Ht. specialize (Ht _ E). cbn [fst snd] in Ht.
    destruct f as [f|f|f]; try (destruct Ht as [X _]; contradiction). cbv iota.
    destruct (set_flag _ _ st) as [st'|]; [apply IH; lia|reflexivity].
  - replace (d ++ n) with (d ++ n ++ []) by (rewrite app_nil_r; reflexivity). rewrite parse_one_flag by auto. rewrite app_nil_r, split_flag_plain by exact Hn. cbn [fst snd].
    unfold use_flag. destruct (find_flag n fl) as [f|] eqn:E; [|destruct (_ || _); reflexivity]. cbv zeta.
    apply find_flag_in in E. unfold table_ok in Ht. rewrite Forall_forall in Ht. specialize (Ht _ E). cbn [fst snd] in Ht. cbn [length] in Hf.
    destruct f as [f|f|f]; try (destruct Ht as [X _]; contradiction); cbv iota;
      (destruct (set_flag _ v st) as [st'|]; [apply IH; lia|reflexivity]).
Qed.

Lemma apply_alike p p' fl asg asg' : table_in fl -> Forall2 (flag_alike p p') asg asg' -> forall st st', settings_alike p p' st st' ->
  (exists c, apply_flags fl asg st = Exit c /\ apply_flags fl asg' st' = Exit c) \/
  exists s s', apply_flags fl asg st = Return s /\ apply_flags fl asg' st' = Return s' /\ settings_alike p p' s s'.
Proof.
  intros Ht H. induction H as [|a b asg asg' Hab H IH]; intros st st' Hst; [right; exists st, st'; auto|].
  assert (Step : forall n v v', (n <> bs "password" -> v = v') -> (v = v' \/ v = p /\ v' = p') ->
    (exists c, apply_flags fl ((n, v) :: asg) st = Exit c /\ apply_flags fl ((n, v') :: asg') st' = Exit c) \/
    exists s s', apply_flags fl ((n, v) :: asg) st = Return s /\ apply_flags fl ((n, v') :: asg') st' = Return s' /\ settings_alike p p' s s').
  { intros n v v' Hn Hv. cbn [apply_flags]. destruct (find_flag n fl) as [f|] eqn:Ef; [|left; destruct (_ || _); eexists; split; reflexivity].
    destruct (str_eqb n (bs "password")) eqn:En.
    - apply str_eqb_eq in En as ->. destruct (set_password_alike p p' fl f v v' st st' Ht Ef Hv Hst) as (s & s' & -> & -> & Hs). apply IH. exact Hs.
    - assert (Hne : n <> bs "password") by (intros ->; discriminate En). rewrite <- (Hn Hne).
      pose proof (set_flag_alike p p' fl n f v st st' Ht Ef Hne Hst) as X.
      destruct (set_flag f v st) as [s|], (set_flag f v st') as [s'|]; try contradiction; [apply IH; exact X|left; eexists; split; reflexivity]. }
  destruct Hab as [<-|[-> ->]].
  - destruct a as [n v]. apply Step; auto.
  - apply Step; [intros X; exfalso; apply X; reflexivity|auto].
Qed.

(** ** Commands *)

Lemma get_client_checks u bc : bc_HTTPClient bc = None -> checks_alike (get_client u bc).
Proof.
  intros H hc E. assert (Eb : basic_of (get_client u bc) = bc) by (unfold get_client; repeat match goal with |- context[if ?b then _ else _] => destruct b end; reflexivity).
  rewrite Eb, H in E. discriminate.
Qed.

Lemma world_at_carries m now : carries_alike (m_world m) -> carries_alike (world_at m now).
Proof. intros H r r' t Hr. exact (H r r' t Hr). Qed.

Lemma send_alike p p' m c q q' : usable p -> usable p' -> carries_alike (m_world m) -> checks_alike c -> request_alike p p' q q' ->
  io_alike p p' eq (send m c q) (send m c q').
Proof.
  intros. unfold send. constructor. intros now. constructor; [apply no_parse_alike; auto; apply world_at_carries; assumption|].
  intros x x' [E _]. constructor. exact E.
Qed.

Lemma ask_alike p p' m c q q' : usable p -> usable p' -> carries_alike (m_world m) -> checks_alike c -> request_alike p p' q q' ->
  io_alike p p' (outcome_alike p p') (ask m c q) (ask m c q').
Proof.
  intros. unfold ask. constructor. intros now. constructor; [apply request_alike_net; auto; apply world_at_carries; assumption|].
  intros x x' E. constructor. exact E.
Qed.

Definition ready_alike (p p' : str) (a b : client * (Slots -> Request)) : Prop :=
  fst a = fst b /\ checks_alike (fst a) /\ forall sl, request_alike p p' (snd a sl) (snd b sl).

Lemma empty_request_alike p p' st st' sl : settings_alike p p' st st' -> request_alike p p' (empty_request st sl) (empty_request st' sl).
Proof. intros [<-|[E ->]]; [left; reflexivity|right]. unfold empty_request, with_password. cbn. rewrite E. split; reflexivity. Qed.

Lemma new_request_alike p p' m st st' : settings_alike p p' st st' -> io_alike p p' (ready_alike p p') (new_request m st) (new_request m st').
Proof.
  intros H. unfold new_request.
  assert (E : st_ofxVersion st' = st_ofxVersion st /\ st_serverURL st' = st_serverURL st /\ st_appID st' = st_appID st /\ st_appVer st' = st_appVer st /\
              st_noIndent st' = st_noIndent st /\ st_carriageReturn st' = st_carriageReturn st /\ st_userAgent st' = st_userAgent st)
    by (destruct H as [<-|[_ ->]]; repeat split; reflexivity).
  destruct E as (-> & -> & -> & -> & -> & -> & ->). destruct (enum_new enum_ofxVersion (st_ofxVersion st)) as [v []].
  - constructor. split; [reflexivity|]. split; [apply get_client_checks; reflexivity|]. intros sl. apply empty_request_alike. exact H.
  - apply println_then. constructor.
Qed.

Lemma new_uid_alike p p' m : io_alike p p' eq (new_uid m) (new_uid m).
Proof. constructor. intros r. destruct (random_uid r); [constructor; reflexivity|apply println_then; constructor]. Qed.

Lemma account_type_alike p p' m st st' : settings_alike p p' st st' -> io_alike p p' eq (account_type m st) (account_type m st').
Proof.
  intros H. unfold account_type. assert (E : st_acctType st' = st_acctType st) by (destruct H as [<-|[_ ->]]; reflexivity). rewrite E.
  destruct (enum_new _ _) as [t []]; [constructor; reflexivity|apply println_then; constructor].
Qed.

Lemma finish_alike p p' m what st st' c q q' : usable p -> usable p' -> carries_alike (m_world m) -> checks_alike c ->
  settings_alike p p' st st' -> st_dryrun st = false -> request_alike p p' q q' ->
  io_alike p p' eq (finish_download m what st c q) (finish_download m what st' c q').
Proof.
  intros Hp Hp' Hw Hc Hst Hd Hq. unfold finish_download.
  assert (E : st_dryrun st' = false /\ st_filename st' = st_filename st) by (destruct Hst as [<-|[_ ->]]; auto). destruct E as [-> ->]. rewrite Hd.
  eapply io_alike_bind; [apply send_alike; eassumption|]. intros o o' <-. destruct o as [[rp|] [err|]].
  - apply println_then. constructor.
  - constructor. intros ok. destruct (negb ok); [apply println_then; constructor|]. constructor. intros ok'. destruct (negb ok'); [apply println_then; constructor|].
    constructor. reflexivity.
  - apply println_then. constructor.
  - constructor.
Qed.

Lemma ask_and_check_alike p p' m error st st' c q q' k : usable p -> usable p' -> carries_alike (m_world m) -> checks_alike c ->
  settings_alike p p' st st' -> st_dryrun st = false -> request_alike p p' q q' -> (forall r, io_alike p p' eq (k r) (k r)) ->
  io_alike p p' eq (ask_and_check m error st c q k) (ask_and_check m error st' c q' k).
Proof.
  intros Hp Hp' Hw Hc Hst Hd Hq Hk. unfold ask_and_check.
  assert (E : st_dryrun st' = false) by (destruct Hst as [<-|[_ ->]]; auto). rewrite E, Hd.
  eapply io_alike_bind; [apply ask_alike; eassumption|]. intros x x' [<- _]. destruct (fst x) as [[r|] [err|]].
  - destruct error; [apply println_then|]; constructor.
  - cbv zeta. destruct (_ =? _)%Z; [apply Hk|apply print_then; constructor].
  - destruct error; [apply println_then|]; constructor.
  - constructor.
Qed.

Lemma print_transaction_alike p p' cur t : io_alike p p' eq (print_transaction cur t) (print_transaction cur t).
Proof. apply print_alike. Qed.

Lemma print_accounts_alike p p' r : io_alike p p' eq
  match sl_signup (rs_slots r) with
    | [] => println (bs "No signup messages received")
    | x :: _ =>
        print ([chr 10] ++ bs "Found the following accounts:" ++ [chr 10; chr 10]) ~;
        match x with
        | MsgAcctInfoResponse a => each (AcctInfoResponse_AcctInfo a) (fun i => print (account_text i))
        | _ => Return tt
        end
    end
  match sl_signup (rs_slots r) with
    | [] => println (bs "No signup messages received")
    | x :: _ =>
        print ([chr 10] ++ bs "Found the following accounts:" ++ [chr 10; chr 10]) ~;
        match x with
        | MsgAcctInfoResponse a => each (AcctInfoResponse_AcctInfo a) (fun i => print (account_text i))
        | _ => Return tt
        end
    end.
Proof.
  destruct (sl_signup (rs_slots r)) as [|x ms]; [apply println_alike|]. apply print_then.
  destruct x; try (constructor; reflexivity). apply each_alike. intros i. apply print_alike.
Qed.

Lemma print_bank_alike p p' r : io_alike p p' eq (print_bank r) (print_bank r).
Proof.
  unfold print_bank. destruct (sl_bank (rs_slots r)) as [|x ms]; [apply println_alike|]. destruct x as [| | | | | | |s| | | | |]; try (constructor; reflexivity).
  apply print_then. apply println_then. destruct (StatementResponse_BankTranList s); [|constructor]. apply each_alike. apply print_transaction_alike.
Qed.

Lemma print_cc_alike p p' r : io_alike p p' eq (print_cc r) (print_cc r).
Proof.
  unfold print_cc. destruct (sl_creditcard (rs_slots r)) as [|x ms]; [apply println_alike|]. destruct x as [| | | | | | | |s| | | |]; try (constructor; reflexivity).
  apply print_then. apply println_then. destruct (CCStatementResponse_BankTranList s) as [tl|]; [|constructor]. apply each_alike. intros t. unfold print_cc_transaction.
  destruct (is_empty _); [destruct (Transaction_Payee t); [apply print_alike|constructor]|apply print_alike].
Qed.

Lemma print_inv_alike p p' r : io_alike p p' eq (print_inv r) (print_inv r).
Proof.
  unfold print_inv. destruct (sl_invstmt (rs_slots r)) as [|x ms]; [apply println_alike|]. destruct x as [| | | | | | | | |s| | |]; try (constructor; reflexivity).
  cbv zeta. destruct (InvStatementResponse_InvBal s) as [b|]; [|constructor].
  eapply io_alike_bind with (R := eq).
  - destruct (_ && _); [apply print_alike|constructor; reflexivity].
  - intros _ _ _. destruct (InvStatementResponse_InvTranList s) as [l|]; [|constructor].
    eapply io_alike_bind with (R := eq).
    + apply each_alike. intros bt. apply print_then. apply each_alike. apply print_transaction_alike.
    + intros _ _ _. apply print_then. apply each_alike. intros t. apply print_alike.
Qed.

Lemma try_profile_alike p p' m st st' id ver version noindent : usable p -> usable p' -> carries_alike (m_world m) -> settings_alike p p' st st' ->
  io_alike p p' eq (try_profile m st id ver version noindent) (try_profile m st' id ver version noindent).
Proof.
  intros Hp Hp' Hw Hst. unfold try_profile. assert (E : st_serverURL st' = st_serverURL st) by (destruct Hst as [<-|[_ ->]]; reflexivity). rewrite E.
  destruct (enum_new _ _) as [v []]; [|apply println_then; constructor]. cbv zeta.
  eapply io_alike_bind; [apply new_uid_alike|]. intros uid _ <-.
  eapply io_alike_bind; [apply ask_alike; [exact Hp|exact Hp'|exact Hw|apply get_client_checks; reflexivity|apply empty_request_alike; exact Hst]|].
  intros x x' [Ef Eq]. rewrite <- Ef. destruct (snd (fst x)); [|constructor; reflexivity].
  eapply io_alike_bind; [apply ask_alike; [exact Hp|exact Hp'|exact Hw|apply get_client_checks; reflexivity|]|].
  - left. destruct Eq as [<-|[_ ->]]; reflexivity.
  - intros y y' [Ef' _]. rewrite <- Ef'. constructor. reflexivity.
Qed.

Lemma attempt_alike p p' m st st' n id ver version noindent : usable p -> usable p' -> carries_alike (m_world m) -> settings_alike p p' st st' ->
  io_alike p p' eq (attempt m st n id ver version noindent) (attempt m st' n id ver version noindent).
Proof.
  intros Hp Hp' Hw Hst. unfold attempt. eapply io_alike_bind; [apply try_profile_alike; eassumption|]. intros ok _ <-. destruct ok.
  - repeat apply println_then. constructor.
  - cbv zeta. assert (E : st_delay st' = st_delay st) by (destruct Hst as [<-|[_ ->]]; reflexivity). rewrite E.
    apply println_then. constructor. constructor. reflexivity.
Qed.

Lemma do_alike p p' m cmd st st' : usable p -> usable p' -> carries_alike (m_world m) -> settings_alike p p' st st' -> st_dryrun st = false ->
  In cmd commands -> io_alike p p' eq (cmd_do cmd m st) (cmd_do cmd m st').
Proof.
  intros Hp Hp' Hw Hst Hd Hc.
  assert (E : st_bankID st' = st_bankID st /\ st_acctID st' = st_acctID st /\ st_brokerID st' = st_brokerID st) by (destruct Hst as [<-|[_ ->]]; auto).
  destruct E as (Eb & Ea & Er).
  assert (M1 : forall t uid, bank_message st' t uid = bank_message st t uid) by (intros; unfold bank_message; rewrite Eb, Ea; reflexivity).
  assert (M2 : forall uid, cc_message st' uid = cc_message st uid) by (intros; unfold cc_message; rewrite Ea; reflexivity).
  assert (M3 : forall uid, inv_message st' uid = inv_message st uid) by (intros; unfold inv_message; rewrite Er, Ea; reflexivity).
  cbn [In commands] in Hc. repeat destruct Hc as [<-|Hc]; [..|contradiction]; cbn [cmd_do];
    unfold download_bank, download_cc, download_inv, download_profile, get_accounts, transactions_bank, transactions_cc, transactions_inv;
    try (eapply io_alike_bind; [apply new_request_alike; exact Hst|]; intros [c f] [c' f'] (Ec & Hcc & Hf); cbn [fst snd] in *; subst c';
      try (eapply io_alike_bind; [apply account_type_alike; exact Hst|]; intros t _ <-);
      eapply io_alike_bind; [apply new_uid_alike|]; intros uid _ <-; rewrite ?M1, ?M2, ?M3;
      first [apply finish_alike; auto | apply ask_and_check_alike; auto];
      first [apply print_accounts_alike | apply print_bank_alike | apply print_cc_alike | apply print_inv_alike]).
  unfold detect_settings. eapply io_alike_bind with (R := eq); [|intros _ _ _; constructor; reflexivity].
  apply counting_alike. intros n id. apply counting_alike. intros n1 ver. apply counting_alike. intros n2 version. apply counting_alike. intros n3 noindent.
  apply attempt_alike; auto.
Qed.

Definition checked_alike (p p' : str) (x x' : bool * settings) : Prop :=
  fst x = fst x' /\ settings_alike p p' (snd x) (snd x') /\ st_dryrun (snd x) = false.

Lemma usable_nonempty p : usable p -> is_empty p = false.
Proof. unfold usable. destruct p; cbn [length is_empty]; [lia|reflexivity]. Qed.

Lemma check_server_alike p p' m st st' : usable p -> usable p' -> settings_alike p p' st st' -> st_dryrun st = false ->
  io_alike p p' (checked_alike p p') (check_server_flags m st) (check_server_flags m st').
Proof.
  intros Hp Hp' Hst Hd. unfold check_server_flags.
  assert (E : st_serverURL st' = st_serverURL st /\ st_username st' = st_username st /\ is_empty (st_password st') = is_empty (st_password st)).
  { destruct Hst as [<-|[E ->]]; [auto|]. rewrite E. cbn. rewrite (usable_nonempty _ Hp), (usable_nonempty _ Hp'). auto. }
  destruct E as (-> & -> & ->).
  eapply io_alike_bind with (R := eq); [destruct (is_empty _); [apply println_alike|constructor; reflexivity]|]. intros _ _ _.
  eapply io_alike_bind with (R := eq); [destruct (is_empty _); [apply println_alike|constructor; reflexivity]|]. intros _ _ _.
  cbv zeta. destruct (_ && is_empty (st_password st)); [|constructor; split; [reflexivity|]; split; [exact Hst|exact Hd]].
  apply print_then. constructor. intros x x' Hx. destruct x as [pass|].
  - assert (Hx' : exists pass', x' = Some pass' /\ (pass = pass' \/ pass = p /\ pass' = p')).
    { destruct Hx as [<-|[E ->]]; [eauto|]. exists p'. split; [reflexivity|]. right. split; [congruence|reflexivity]. }
    destruct Hx' as (pass' & -> & Hpass). constructor. split; [reflexivity|]. cbn [fst snd]. split; [|exact Hd].
    assert (Es : set_password pass' st' = set_password pass' st) by (destruct Hst as [<-|[_ ->]]; reflexivity). rewrite Es.
    destruct Hpass as [<-|[-> ->]]; [left; reflexivity|right; split; reflexivity].
  - assert (x' = None) as -> by (destruct Hx as [<-|[E _]]; [reflexivity|discriminate]).
    apply println_then. constructor. split; [reflexivity|]. split; [exact Hst|exact Hd].
Qed.

Lemma check_download_alike p p' m st st' : usable p -> usable p' -> settings_alike p p' st st' -> st_dryrun st = false ->
  io_alike p p' (checked_alike p p') (check_download_flags m st) (check_download_flags m st').
Proof.
  intros Hp Hp' Hst Hd. unfold check_download_flags. eapply io_alike_bind; [apply check_server_alike; eassumption|].
  intros [b s] [b' s'] (Eb & Hs & Hds). cbn [fst snd] in *. subst b'.
  assert (E : st_filename s' = st_filename s) by (destruct Hs as [<-|[_ ->]]; reflexivity). rewrite E.
  destruct (is_empty _); [apply println_then|]; constructor; (split; [reflexivity|]; split; [exact Hs|exact Hds]).
Qed.

Lemma check_alike p p' m cmd st st' : usable p -> usable p' -> settings_alike p p' st st' -> st_dryrun st = false -> In cmd commands ->
  io_alike p p' (checked_alike p p') (cmd_check cmd m st) (cmd_check cmd m st').
Proof.
  intros Hp Hp' Hst Hd Hc. cbn [In commands] in Hc. repeat destruct Hc as [<-|Hc]; [..|contradiction]; cbn [cmd_check];
    try (apply check_server_alike; assumption); try (apply check_download_alike; assumption).
  unfold check_profile_flags. assert (E : st_username st' = st_username st) by (destruct Hst as [<-|[_ ->]]; reflexivity). rewrite E.
  destruct (is_empty (st_username st)); [|apply check_download_alike; assumption].
  apply check_download_alike; [exact Hp|exact Hp'| |exact Hd]. left. destruct Hst as [<-|[_ ->]]; reflexivity.
Qed.

Lemma run_cmd_alike p p' m cmd args args' asg asg' : usable p -> usable p' -> carries_alike (m_world m) -> In cmd commands ->
  flag_args args asg -> flag_args args' asg' -> Forall2 (flag_alike p p') asg asg' -> turned_on (bs "dryrun") asg = false ->
  io_alike p p' eq (run_cmd m cmd args) (run_cmd m cmd args').
Proof.
  intros Hp Hp' Hw Hc Ha Ha' Hal Hd. unfold run_cmd, parse_flags.
  pose proof (parse_flags_after (cmd_flags cmd) args asg (command_tables _ Hc) (command_tables_in _ Hc) Ha (S (length args)) defaults) as Hafter.
  rewrite (parse_applies _ _ _ (command_tables _ Hc) Ha) in * by lia. rewrite (parse_applies _ _ _ (command_tables _ Hc) Ha') by lia.
  destruct (apply_alike p p' (cmd_flags cmd) asg asg' (command_tables_in _ Hc) Hal defaults defaults) as [(c & -> & ->)|(s & s' & E & -> & Hs)];
    [left; reflexivity|constructor|].
  rewrite E in *. cbn [bind_io].
  assert (Hds : st_dryrun s = false).
  { destruct Hafter as [[c X]|X]; [lia|discriminate|]. injection X as ->. exact Hd. }
  eapply io_alike_bind; [apply check_alike; eassumption|]. intros [b t] [b' t'] (Eb & Ht & Hdt). cbn [fst snd] in *. subst b'. destruct b.
  - apply do_alike; assumption.
  - apply print_then. apply print_then. constructor.
Qed.

Lemma main_alike p p' m name args args' asg asg' : usable p -> usable p' -> carries_alike (m_world m) ->
  flag_args args asg -> flag_args args' asg' -> Forall2 (flag_alike p p') asg asg' -> turned_on (bs "dryrun") asg = false ->
  io_alike p p' eq (main m (name :: args)) (main m (name :: args')).
Proof.
  intros Hp Hp' Hw Ha Ha' Hal Hd. unfold main. destruct (find_command name commands) as [cmd|] eqn:Ec.
  - apply find_command_in in Ec as [Hc _]. eapply io_alike_bind; [eapply run_cmd_alike; eassumption|]. intros _ _ _. constructor.
  - assert (U : io_alike p p' eq usage usage) by (apply println_then; apply each_alike; intros c; apply print_alike).
    destruct (existsb _ _); [exact U|]. apply println_then. eapply io_alike_bind; [exact U|]. intros _ _ _. constructor.
Qed.
