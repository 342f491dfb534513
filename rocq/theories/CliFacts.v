(** Facts about the command line tool. *)
From Coq Require Import QArith Lia Bool ZifyBool ZifyNat ZifyN.
From Verif Require Import GoStr SpecStr GoStrFacts GoNum GoUint GoTime Types Enums EnumTables Records Common Messages Codec Schema
  Document SpecDocument SetsFacts TreeFacts Wire Marshal WireFacts Url Clients SpecClients ClientFacts Cli SpecCli.
Close Scope Q_scope.

(** ** Runs *)

Lemma io_return_inv A (a : A) l e : io_runs (Return a) l e -> l = [] /\ e = Finished a.
Proof. intros H. inversion H. auto. Qed.
Lemma io_exit_inv A c l (e : ended A) : io_runs (Exit c) l e -> l = [] /\ e = Exited c.
Proof. intros H. inversion H. auto. Qed.
Lemma io_panic_inv A l (e : ended A) : io_runs Panic l e -> l = [] /\ e = Crashed.
Proof. intros H. inversion H. auto. Qed.
Lemma io_print_inv A s (k : io A) l e : io_runs (Print s k) l e -> exists l', l = EPrint s :: l' /\ io_runs k l' e.
Proof. intros H. inversion H; subst. eauto. Qed.
Lemma io_sleep_inv A s (k : io A) l e : io_runs (Sleep s k) l e -> exists l', l = ESleep s :: l' /\ io_runs k l' e.
Proof. intros H. inversion H; subst. eauto. Qed.
Lemma io_clock_inv A (k : _ -> io A) l e : io_runs (Clock k) l e -> exists x l', l = EClock x :: l' /\ io_runs (k x) l' e.
Proof. intros H. inversion H; subst. eauto. Qed.
Lemma io_rand_inv A (k : _ -> io A) l e : io_runs (Rand k) l e -> exists x l', l = ERand x :: l' /\ io_runs (k x) l' e.
Proof. intros H. inversion H; subst. eauto. Qed.
Lemma io_prompt_inv A (k : _ -> io A) l e : io_runs (Prompt k) l e -> exists x l', l = EPrompt x :: l' /\ io_runs (k x) l' e.
Proof. intros H. inversion H; subst. eauto. Qed.
Lemma io_create_inv A n (k : _ -> io A) l e : io_runs (Create n k) l e -> exists x l', l = ECreate n x :: l' /\ io_runs (k x) l' e.
Proof. intros H. inversion H; subst. eauto. Qed.
Lemma io_save_inv A n (k : _ -> io A) l e : io_runs (Save n k) l e -> exists x l', l = ESave n x :: l' /\ io_runs (k x) l' e.
Proof. intros H. inversion H; subst. eauto. Qed.
Lemma io_send_inv A p (k : _ -> io A) l e : io_runs (Send p k) l e ->
  exists tr x l', l = map ENet tr ++ l' /\ runs p tr x /\ io_runs (k x) l' e.
Proof. intros H. inversion H; subst. eauto 8. Qed.
Lemma io_ask_inv A p (k : _ -> io A) l e : io_runs (Ask p k) l e ->
  exists tr x l', l = map ENet tr ++ l' /\ runs p tr x /\ io_runs (k x) l' e.
Proof. intros H. inversion H; subst. eauto 8. Qed.

Lemma io_runs_bind A B (p : io A) (f : A -> io B) : forall l e, io_runs (bind_io p f) l e ->
  (exists a l1 l2, io_runs p l1 (Finished a) /\ io_runs (f a) l2 e /\ l = l1 ++ l2) \/
  (exists c, e = Exited c /\ io_runs p l (Exited c)) \/
  (e = Crashed /\ io_runs p l Crashed).
Proof.
  induction p as [a|c| |s k IH|n k IH|k IH|k IH|k IH|n k IH|b k IH|p k IH|p k IH]; intros l e H; cbn [bind_io] in H.
  - left. exists a, [], l. split; [constructor|auto].
  - apply io_exit_inv in H as [-> ->]. right. left. exists c. split; [reflexivity|constructor].
  - apply io_panic_inv in H as [-> ->]. right. right. split; [reflexivity|constructor].
  - apply io_print_inv in H as (l' & -> & H).
    destruct (IH _ _ H) as [(a & l1 & l2 & H1 & H2 & ->)|[(c & -> & H1)|[-> H1]]].
    + left. exists a, (EPrint s :: l1), l2. split; [constructor; exact H1|auto].
    + right. left. exists c. split; [reflexivity|constructor; exact H1].
    + right. right. split; [reflexivity|constructor; exact H1].
  - apply io_sleep_inv in H as (l' & -> & H).
    destruct (IH _ _ H) as [(a & l1 & l2 & H1 & H2 & ->)|[(c & -> & H1)|[-> H1]]].
    + left. exists a, (ESleep n :: l1), l2. split; [constructor; exact H1|auto].
    + right. left. exists c. split; [reflexivity|constructor; exact H1].
    + right. right. split; [reflexivity|constructor; exact H1].
  - apply io_clock_inv in H as (x & l' & -> & H).
    destruct (IH _ _ _ H) as [(a & l1 & l2 & H1 & H2 & ->)|[(c & -> & H1)|[-> H1]]].
    + left. exists a, (EClock x :: l1), l2. split; [constructor; exact H1|auto].
    + right. left. exists c. split; [reflexivity|constructor; exact H1].
    + right. right. split; [reflexivity|constructor; exact H1].
  - apply io_rand_inv in H as (x & l' & -> & H).
    destruct (IH _ _ _ H) as [(a & l1 & l2 & H1 & H2 & ->)|[(c & -> & H1)|[-> H1]]].
    + left. exists a, (ERand x :: l1), l2. split; [constructor; exact H1|auto].
    + right. left. exists c. split; [reflexivity|constructor; exact H1].
    + right. right. split; [reflexivity|constructor; exact H1].
  - apply io_prompt_inv in H as (x & l' & -> & H).
    destruct (IH _ _ _ H) as [(a & l1 & l2 & H1 & H2 & ->)|[(c & -> & H1)|[-> H1]]].
    + left. exists a, (EPrompt x :: l1), l2. split; [constructor; exact H1|auto].
    + right. left. exists c. split; [reflexivity|constructor; exact H1].
    + right. right. split; [reflexivity|constructor; exact H1].
  - apply io_create_inv in H as (x & l' & -> & H).
    destruct (IH _ _ _ H) as [(a & l1 & l2 & H1 & H2 & ->)|[(c & -> & H1)|[-> H1]]].
    + left. exists a, (ECreate n x :: l1), l2. split; [constructor; exact H1|auto].
    + right. left. exists c. split; [reflexivity|constructor; exact H1].
    + right. right. split; [reflexivity|constructor; exact H1].
  - apply io_save_inv in H as (x & l' & -> & H).
    destruct (IH _ _ _ H) as [(a & l1 & l2 & H1 & H2 & ->)|[(c & -> & H1)|[-> H1]]].
    + left. exists a, (ESave b x :: l1), l2. split; [constructor; exact H1|auto].
    + right. left. exists c. split; [reflexivity|constructor; exact H1].
    + right. right. split; [reflexivity|constructor; exact H1].
  - apply io_send_inv in H as (tr & x & l' & -> & Hp & H).
    destruct (IH _ _ _ H) as [(a & l1 & l2 & H1 & H2 & ->)|[(c & -> & H1)|[-> H1]]].
    + left. exists a, (map ENet tr ++ l1), l2. split; [econstructor; [exact Hp|exact H1]|]. rewrite app_assoc. auto.
    + right. left. exists c. split; [reflexivity|econstructor; [exact Hp|exact H1]].
    + right. right. split; [reflexivity|econstructor; [exact Hp|exact H1]].
  - apply io_ask_inv in H as (tr & x & l' & -> & Hp & H).
    destruct (IH _ _ _ H) as [(a & l1 & l2 & H1 & H2 & ->)|[(c & -> & H1)|[-> H1]]].
    + left. exists a, (map ENet tr ++ l1), l2. split; [econstructor; [exact Hp|exact H1]|]. rewrite app_assoc. auto.
    + right. left. exists c. split; [reflexivity|econstructor; [exact Hp|exact H1]].
    + right. right. split; [reflexivity|econstructor; [exact Hp|exact H1]].
Qed.

Lemma io_runs_bind_make A B (p : io A) (f : A -> io B) l1 a l2 e :
  io_runs p l1 (Finished a) -> io_runs (f a) l2 e -> io_runs (bind_io p f) (l1 ++ l2) e.
Proof.
  intros H1 H2. remember (Finished a) as ea eqn:Ee. revert Ee.
  induction H1; intros Ee; try discriminate; cbn [bind_io app]; try (rewrite <- app_assoc);
    try (econstructor; eauto; fail).
  injection Ee as ->. exact H2.
Qed.

(** ** Programs without network operations *)

Fixpoint quiet {A} (p : io A) : Prop :=
  match p with
  | Return _ | Exit _ | Panic => True
  | Print _ k | Sleep _ k => quiet k
  | Clock k => forall x, quiet (k x)
  | Rand k => forall x, quiet (k x)
  | Prompt k => forall x, quiet (k x)
  | Create _ _ | Save _ _ | Send _ _ | Ask _ _ => False
  end.

(** Neither network nor files. *)
Definition local_event (x : io_event) : Prop :=
  match x with ENet _ | ECreate _ _ | ESave _ _ => False | _ => True end.

Lemma quiet_runs A (p : io A) l e : io_runs p l e -> quiet p -> Forall local_event l.
Proof.
  induction 1; cbn [quiet]; intros Hq; try (constructor; fail); try contradiction;
    constructor; cbn [local_event]; auto.
Qed.

Lemma quiet_bind A B (p : io A) (f : A -> io B) : quiet p -> (forall a, quiet (f a)) -> quiet (bind_io p f).
Proof. intros Hp Hf. induction p; cbn [quiet bind_io] in *; auto. Qed.

Lemma quiet_each A (l : list A) f : (forall x, quiet (f x)) -> quiet (each l f).
Proof. intros Hf. induction l as [|x l IH]; cbn [each]; [exact I|]. apply quiet_bind; auto. Qed.

Lemma local_network l : Forall local_event l -> network l = [].
Proof. induction 1 as [|x l Hx _ IH]; [reflexivity|]. destruct x; try contradiction; exact IH. Qed.

Lemma network_app a b : network (a ++ b) = network a ++ network b.
Proof. apply flat_map_app. Qed.
Lemma network_net tr : network (map ENet tr) = tr.
Proof. induction tr as [|x tr IH]; [reflexivity|]. cbn. f_equal. exact IH. Qed.
Lemma printed_app a b : printed (a ++ b) = printed a ++ printed b.
Proof. apply flat_map_app. Qed.
Lemma printed_net tr : printed (map ENet tr) = [].
Proof. induction tr as [|x tr IH]; [reflexivity|]. exact IH. Qed.

(** ** Flags *)

(** What the flags leave alone and how they are read. *)
Definition table_ok (fl : flags) : Prop :=
  Forall (fun p => match snd p with
                   | FString f => ~ switch (fst p) /\ forall v st, st_dryrun (f v st) = st_dryrun st
                   | FUint f => ~ switch (fst p) /\ forall v st, st_dryrun (f v st) = st_dryrun st
                   | FBool f => switch (fst p) /\ forall b st, st_dryrun (f b st) = if str_eqb (fst p) (bs "dryrun") then b else st_dryrun st
                   end) fl.

Lemma find_flag_in n fl v : find_flag n fl = Some v -> In (n, v) fl.
Proof.
  induction fl as [|[n' v'] fl IH]; cbn [find_flag]; [discriminate|].
  destruct (str_eqb n' n) eqn:E; [|intros H; right; auto]. apply str_eqb_eq in E as ->. intros [= ->]. left. reflexivity.
Qed.

Definition switchb (n : str) : bool := existsb (str_eqb n) [bs "noindent"; bs "carriagereturn"; bs "dryrun"].
Lemma switchb_iff n : switchb n = true <-> switch n.
Proof.
  unfold switchb, switch. rewrite existsb_exists. split.
  - intros (x & Hx & E). apply str_eqb_eq in E as ->. exact Hx.
  - intros H. exists n. split; [exact H|]. apply str_eqb_eq. reflexivity.
Qed.

Lemma server_table : table_ok server_flags.
Proof.
  unfold table_ok, server_flags. repeat (apply Forall_cons; [cbn [fst snd]; rewrite <- ?switchb_iff;
    (split; [first [reflexivity | intros X; discriminate X]|intros ? []; reflexivity])|]).
  apply Forall_nil.
Qed.

Lemma detect_table : table_ok detect_flags.
Proof.
  unfold table_ok, detect_flags. repeat (apply Forall_cons; [cbn [fst snd]; rewrite <- ?switchb_iff;
    (split; [first [reflexivity | intros X; discriminate X]|intros ? []; reflexivity])|]).
  apply Forall_nil.
Qed.

Lemma table_app a b : table_ok a -> table_ok b -> table_ok (a ++ b).
Proof. intros Ha Hb. apply Forall_app. auto. Qed.

Lemma command_tables c : In c commands -> table_ok (cmd_flags c).
Proof.
  intros H. cbn [In commands] in H.
  repeat destruct H as [<-|H]; [..|contradiction]; cbn [cmd_flags]; try exact detect_table; try exact server_table;
    (apply table_app; [exact server_table|]); unfold table_ok, f_filename, f_bankid, f_acctid, f_accttype, f_brokerid;
    repeat (apply Forall_cons; [cbn [fst snd]; rewrite <- ?switchb_iff; (split; [intros X; discriminate X|intros ? []; reflexivity])|]);
    apply Forall_nil.
Qed.

(** The value of -dryrun after these assignments. *)
Fixpoint dry_after (d : bool) (l : list (str * str)) : bool :=
  match l with
  | [] => d
  | (n, v) :: l => dry_after (if str_eqb n (bs "dryrun") then match parse_bool v with Some b => b | None => d end else d) l
  end.

Lemma parse_bool_yes v : yes v -> parse_bool v = Some true.
Proof. unfold yes, parse_bool. cbn [In]. intros H. repeat destruct H as [<-|H]; [..|contradiction]; reflexivity. Qed.

Lemma dry_after_last d l v : last_given (bs "dryrun") v l -> yes v -> dry_after d l = true.
Proof.
  intros (l1 & l2 & -> & Hn) Hy. revert d. induction l1 as [|[n w] l1 IH]; intros d; cbn [app dry_after]; [|apply IH].
  rewrite (proj2 (str_eqb_eq _ _) eq_refl), (parse_bool_yes v Hy).
  induction l2 as [|[n w] l2 IH]; [reflexivity|]. cbn [dry_after map fst] in *.
  destruct (str_eqb n (bs "dryrun")) eqn:E; [|apply IH; intros H; apply Hn; right; exact H].
  apply str_eqb_eq in E as ->. exfalso. apply Hn. left. reflexivity.
Qed.

Lemma use_flag_more fl n v st args : table_ok fl -> flag_name n ->
  match use_flag fl n v st args with
  | FMore st' rest =>
      exists s, (v = Some s /\ rest = args \/ v = None /\ switch n /\ s = bs "true" /\ rest = args \/
                 v = None /\ ~ switch n /\ args = s :: rest) /\
        st_dryrun st' = if str_eqb n (bs "dryrun") then match parse_bool s with Some b => b | None => st_dryrun st end else st_dryrun st
  | FDone _ => False
  | FHelp | FError => True
  end.
Proof.
  intros Ht Hn. unfold use_flag. destruct (find_flag n fl) as [x|] eqn:E; [|destruct (_ || _); exact I].
  apply find_flag_in in E. unfold table_ok in Ht. rewrite Forall_forall in Ht. specialize (Ht _ E). cbn [fst snd] in Ht.
  assert (Hd : ~ switch n -> str_eqb n (bs "dryrun") = false).
  { intros Hs. destruct (str_eqb n (bs "dryrun")) eqn:En; [|reflexivity]. apply str_eqb_eq in En as ->. exfalso. apply Hs. right. right. left. reflexivity. }
  destruct x as [f|f|f]; destruct Ht as [Hs Hf]; unfold set_flag.
  - specialize (Hd Hs). rewrite Hd. destruct v as [s|]; [exists s; split; [auto|apply Hf]|].
    destruct args as [|s rest]; [exact I|]. exists s. split; [auto 6|apply Hf].
  - destruct v as [s|]; cbv iota beta.
    + destruct (parse_bool s) as [b|] eqn:Eb; [|exact I]. exists s. split; [auto|]. rewrite Hf, Eb. destruct (str_eqb n (bs "dryrun")); reflexivity.
    + destruct (parse_bool (bs "true")) as [b|] eqn:Eb; [|exact I]. exists (bs "true"). split; [auto 6|]. rewrite Hf, Eb.
      destruct (str_eqb n (bs "dryrun")); reflexivity.
  - specialize (Hd Hs). rewrite Hd. destruct v as [s|].
    + destruct (parse_uint64 s) as [k|]; [|exact I]. exists s. split; [auto|apply Hf].
    + destruct args as [|s rest]; [exact I|]. destruct (parse_uint64 s) as [k|]; [|exact I]. exists s. split; [auto 6|apply Hf].
Qed.

Lemma split_flag_equals n v : flag_name n -> split_flag (n ++ bs "=" ++ v) = (n, Some v).
Proof.
  intros (Hne & _ & Hni). destruct n as [|c n]; [contradiction|]. cbn [app split_flag].
  assert (Hn : ~ In "="%char n) by (intros X; apply Hni; right; exact X).
  change (bs "=" ++ v) with ("="%char :: v). change (bs "=") with ["="%char]. rewrite (index_of_app_none _ _ _ Hn).
  f_equal; [f_equal|f_equal].
  - rewrite firstn_app, firstn_all, Nat.sub_diag. cbn [firstn]. rewrite app_nil_r. reflexivity.
  - rewrite skipn_app. rewrite skipn_all2 by lia. replace (S (length n) - length n) with 1 by lia. reflexivity.
Qed.

Lemma split_flag_plain n : flag_name n -> split_flag n = (n, None).
Proof.
  intros (Hne & _ & Hni). destruct n as [|c n]; [contradiction|]. cbn [split_flag].
  change (bs "=") with ["="%char]. rewrite index_of_none_char; [reflexivity|]. intros X. apply Hni. right. exact X.
Qed.

Lemma parse_one_flag fl st d n w rest : dashes d -> flag_name n -> (w = [] \/ hd (chr 0) w = "="%char) ->
  parse_one fl st ((d ++ n ++ w) :: rest) =
  use_flag fl (fst (split_flag (n ++ w))) (snd (split_flag (n ++ w))) st rest.
Proof.
  intros Hd Hn Hw. destruct n as [|c n]; [destruct Hn as [[] _]; reflexivity|]. pose proof Hn as (_ & Hh & Hi). cbn [hd] in Hh.
  assert (Hc : Ascii.eqb c "-" = false) by (destruct (Ascii.eqb c "-") eqn:E; [apply Ascii.eqb_eq in E; contradiction|reflexivity]).
  assert (Hc' : Ascii.eqb c "=" = false)
    by (destruct (Ascii.eqb c "=") eqn:E; [apply Ascii.eqb_eq in E; exfalso; apply Hi; left; exact E|reflexivity]).
  destruct Hd as [-> | ->]; cbn [app bs list_ascii_of_string parse_one Ascii.eqb Bool.eqb negb andb tl]; rewrite ?Hc; cbn [andb]; rewrite ?Hc, ?Hc'; cbn [orb];
    destruct (split_flag (c :: n ++ w)) as [x y]; reflexivity.
Qed.

Lemma parse_one_other fl st s rest : (s = [] \/ hd (chr 0) s <> "-"%char \/ s = bs "-" \/ s = bs "--") ->
  parse_one fl st (s :: rest) = FDone st.
Proof.
  intros [->|[H|[-> | ->]]]; try reflexivity. unfold parse_one. destruct s as [|c [|d t]]; try reflexivity.
  cbn [hd] in H. destruct (Ascii.eqb c "-") eqn:E; [apply Ascii.eqb_eq in E; contradiction|reflexivity].
Qed.

Lemma parse_flags_dry fl args asg : table_ok fl -> flag_args args asg -> forall fuel st, length args < fuel ->
  (exists c, parse_flags_fuel fuel fl st args = Exit c) \/
  exists st', parse_flags_fuel fuel fl st args = Return st' /\ st_dryrun st' = dry_after (st_dryrun st) asg.
Proof.
  intros Ht Ha. induction Ha as [|s rest Hs|d n v rest l Hd Hn Ha IH|d n rest l Hd Hn Hs Ha IH|d n v rest l Hd Hn Hs Ha IH];
    intros fuel st Hf; (destruct fuel as [|fuel]; [lia|]); cbn [length] in Hf; cbn [parse_flags_fuel].
  - right. exists st. split; reflexivity.
  - rewrite parse_one_other by exact Hs. right. exists st. split; reflexivity.
  - rewrite parse_one_flag by (auto; right; reflexivity). rewrite split_flag_equals by exact Hn. cbn [fst snd].
    pose proof (use_flag_more fl n (Some v) st rest Ht Hn) as Hu. destruct (use_flag fl n (Some v) st rest) as [st1|st1 rest1| |]; eauto; [contradiction|].
    destruct Hu as (s & [[[= <-] ->]|[(E & _)|(E & _)]] & Hu); try discriminate.
    cbn [dry_after]. rewrite <- Hu. apply IH. lia.
  - replace (d ++ n) with (d ++ n ++ []) by (rewrite app_nil_r; reflexivity). rewrite parse_one_flag by auto. rewrite app_nil_r, split_flag_plain by exact Hn. cbn [fst snd].
    pose proof (use_flag_more fl n None st rest Ht Hn) as Hu. destruct (use_flag fl n None st rest) as [st1|st1 rest1| |]; eauto; [contradiction|].
    destruct Hu as (s & [[E _]|[(_ & _ & -> & ->)|(_ & E & _)]] & Hu); try discriminate; [|contradiction].
    cbn [dry_after]. rewrite <- Hu. apply IH. lia.
  - replace (d ++ n) with (d ++ n ++ []) by (rewrite app_nil_r; reflexivity). rewrite parse_one_flag by auto. rewrite app_nil_r, split_flag_plain by exact Hn. cbn [fst snd].
    pose proof (use_flag_more fl n None st (v :: rest) Ht Hn) as Hu. destruct (use_flag fl n None st (v :: rest)) as [st1|st1 rest1| |]; eauto; [contradiction|].
    destruct Hu as (s & [[E _]|[(_ & E & _)|(_ & _ & E)]] & Hu); try discriminate; [contradiction|]. injection E as <- <-.
    cbn [dry_after]. rewrite <- Hu. apply IH. cbn [length] in Hf. lia.
Qed.

Lemma parse_flags_unknown fl args asg n0 : table_ok fl -> find_flag n0 fl = None -> flag_args args asg -> In n0 (map fst asg) ->
  forall fuel st, length args < fuel -> exists c, parse_flags_fuel fuel fl st args = Exit c.
Proof.
  intros Ht Hno Ha. induction Ha as [|s rest Hs|d n v rest l Hd Hn Ha IH|d n rest l Hd Hn Hs Ha IH|d n v rest l Hd Hn Hs Ha IH];
    intros Hin fuel st Hf; (destruct fuel as [|fuel]; [lia|]); cbn [length] in Hf; cbn [parse_flags_fuel]; try contradiction;
    cbn [map fst] in Hin.
  - rewrite parse_one_flag by (auto; right; reflexivity). rewrite split_flag_equals by exact Hn. cbn [fst snd].
    pose proof (use_flag_more fl n (Some v) st rest Ht Hn) as Hu.
    destruct Hin as [->|Hin]; [unfold use_flag; rewrite Hno; destruct (_ || _); eauto|].
    destruct (use_flag fl n (Some v) st rest) as [st1|st1 rest1| |]; eauto; [contradiction|].
    destruct Hu as (s & [[[= <-] ->]|[(E & _)|(E & _)]] & Hu); try discriminate. apply IH; [exact Hin|lia].
  - replace (d ++ n) with (d ++ n ++ []) by (rewrite app_nil_r; reflexivity). rewrite parse_one_flag by auto. rewrite app_nil_r, split_flag_plain by exact Hn. cbn [fst snd].
    pose proof (use_flag_more fl n None st rest Ht Hn) as Hu.
    destruct Hin as [->|Hin]; [unfold use_flag; rewrite Hno; destruct (_ || _); eauto|].
    destruct (use_flag fl n None st rest) as [st1|st1 rest1| |]; eauto; [contradiction|].
    destruct Hu as (s & [[E _]|[(_ & _ & -> & ->)|(_ & E & _)]] & Hu); try discriminate; [|contradiction]. apply IH; [exact Hin|lia].
  - replace (d ++ n) with (d ++ n ++ []) by (rewrite app_nil_r; reflexivity). rewrite parse_one_flag by auto. rewrite app_nil_r, split_flag_plain by exact Hn. cbn [fst snd].
    pose proof (use_flag_more fl n None st (v :: rest) Ht Hn) as Hu.
    destruct Hin as [->|Hin]; [unfold use_flag; rewrite Hno; destruct (_ || _); eauto|].
    destruct (use_flag fl n None st (v :: rest)) as [st1|st1 rest1| |]; eauto; [contradiction|].
    destruct Hu as (s & [[E _]|[(_ & E & _)|(_ & _ & E)]] & Hu); try discriminate; [contradiction|]. injection E as <- <-.
    apply IH; [exact Hin|cbn [length] in Hf; lia].
Qed.

(** ** Dry runs *)

Definition returns {A} (p : io A) (a : A) : Prop := exists l, io_runs p l (Finished a).

Lemma quiet_bind_with A B (p : io A) (f : A -> io B) : quiet p -> (forall a, returns p a -> quiet (f a)) -> quiet (bind_io p f).
Proof.
  induction p as [a|c| |s k IH|n k IH|k IH|k IH|k IH|n k IH|b k IH|p k IH|p k IH]; cbn [quiet bind_io]; intros Hq Hf; auto.
  - apply Hf. exists []. constructor.
  - apply IH; [exact Hq|]. intros a [l H]. apply Hf. exists (EPrint s :: l). constructor. exact H.
  - apply IH; [exact Hq|]. intros a [l H]. apply Hf. exists (ESleep n :: l). constructor. exact H.
  - intros x. apply IH; [apply Hq|]. intros a [l H]. apply Hf. exists (EClock x :: l). constructor. exact H.
  - intros x. apply IH; [apply Hq|]. intros a [l H]. apply Hf. exists (ERand x :: l). constructor. exact H.
  - intros x. apply IH; [apply Hq|]. intros a [l H]. apply Hf. exists (EPrompt x :: l). constructor. exact H.
Qed.

Lemma returns_bind A B (p : io A) (f : A -> io B) b : returns (bind_io p f) b -> exists a, returns p a /\ returns (f a) b.
Proof.
  intros [l H]. apply io_runs_bind in H as [(a & l1 & l2 & H1 & H2 & _)|[(c & E & _)|[E _]]]; try discriminate.
  exists a. split; [exists l1|exists l2]; assumption.
Qed.

Lemma returns_return A (a b : A) : returns (Return a) b -> b = a.
Proof. intros [l H]. apply io_return_inv in H as [_ H]. congruence. Qed.

Lemma returns_prompt A (k : _ -> io A) b : returns (Prompt k) b -> exists x, returns (k x) b.
Proof. intros [l H]. apply io_prompt_inv in H as (x & l' & _ & H). exists x, l'. exact H. Qed.

Lemma check_server_quiet m st : quiet (check_server_flags m st).
Proof.
  unfold check_server_flags, print, println. repeat (apply quiet_bind; [destruct (is_empty _); exact I|intros _]). cbv zeta.
  destruct (_ && is_empty (st_password st)); [|exact I]. apply quiet_bind; [exact I|]. intros _. cbn [quiet]. intros [pass|]; exact I.
Qed.

Lemma check_server_dry m st r : returns (check_server_flags m st) r -> st_dryrun (snd r) = st_dryrun st.
Proof.
  unfold check_server_flags, print, println. intros H. apply returns_bind in H as (_ & _ & H). apply returns_bind in H as (_ & _ & H). cbv zeta in H.
  destruct (_ && is_empty (st_password st)).
  - apply returns_bind in H as (_ & _ & H). apply returns_prompt in H as ([pass|] & H).
    + apply returns_return in H as ->. destruct st. reflexivity.
    + apply returns_bind in H as (_ & _ & H). apply returns_return in H as ->. reflexivity.
  - apply returns_return in H as ->. reflexivity.
Qed.

Lemma check_download_quiet m st : quiet (check_download_flags m st).
Proof.
  unfold check_download_flags, println. apply quiet_bind; [apply check_server_quiet|]. intros r. destruct (is_empty _); exact I.
Qed.

Lemma check_download_dry m st r : returns (check_download_flags m st) r -> st_dryrun (snd r) = st_dryrun st.
Proof.
  unfold check_download_flags, println. intros H. apply returns_bind in H as (r' & H1 & H). apply check_server_dry in H1. destruct (is_empty _).
  - apply returns_bind in H as (_ & _ & H). apply returns_return in H as ->. exact H1.
  - apply returns_return in H as ->. exact H1.
Qed.

Lemma commands_check c m st : In c commands -> quiet (cmd_check c m st) /\
  forall r, returns (cmd_check c m st) r -> st_dryrun (snd r) = st_dryrun st.
Proof.
  intros H. cbn [In commands] in H.
  repeat destruct H as [<-|H]; [..|contradiction]; cbn [cmd_check]; (split; [|intros r Hr]);
    try apply check_server_quiet; try apply check_download_quiet;
    try (eapply check_server_dry; eassumption); try (eapply check_download_dry; eassumption);
    unfold check_profile_flags in *; try apply check_download_quiet.
  apply check_download_dry in Hr. rewrite Hr. destruct (is_empty (st_username st)); [|reflexivity]. destruct st. reflexivity.
Qed.

Lemma new_request_quiet m st : quiet (new_request m st).
Proof. unfold new_request, println. destruct (enum_new _ _) as [v []]; exact I. Qed.
Lemma account_type_quiet m st : quiet (account_type m st).
Proof. unfold account_type, println. destruct (enum_new _ _) as [v []]; exact I. Qed.
Lemma new_uid_quiet m : quiet (new_uid m).
Proof. unfold new_uid, println. cbn [quiet]. intros r. destruct (random_uid r); exact I. Qed.
Lemma print_request_quiet m c q : quiet (print_request m c q).
Proof. unfold print_request, println. cbn [quiet]. intros t. destruct (request_marshal _) as [[b q']|]; exact I. Qed.

Lemma commands_quiet c m st : In c commands -> cmd_name c <> bs "detect-settings" -> st_dryrun st = true -> quiet (cmd_do c m st).
Proof.
  intros H Hn Hd. cbn [In commands] in H.
  repeat destruct H as [<-|H]; [..|contradiction]; cbn [cmd_do cmd_name] in *; try (exfalso; apply Hn; reflexivity);
    unfold download_bank, download_cc, download_inv, download_profile, get_accounts, transactions_bank, transactions_cc, transactions_inv;
    (apply quiet_bind; [apply new_request_quiet|intros cq]);
    repeat (apply quiet_bind; [first [apply account_type_quiet|apply new_uid_quiet]|intros ?]);
    unfold finish_download, ask_and_check; rewrite Hd; apply print_request_quiet.
Qed.

Lemma find_command_in n l c : find_command n l = Some c -> In c l /\ cmd_name c = n.
Proof.
  induction l as [|d l IH]; cbn [find_command]; [discriminate|]. destruct (str_eqb (cmd_name d) n) eqn:E.
  - intros [= ->]. apply str_eqb_eq in E. split; [left; reflexivity|exact E].
  - intros H. destruct (IH H). split; [right|]; assumption.
Qed.

Lemma usage_quiet : quiet usage.
Proof. unfold usage, println, print. apply quiet_bind; [exact I|]. intros _. apply quiet_each. intros c. exact I. Qed.

Lemma main_dry m name args asg v : flag_args args asg -> last_given (bs "dryrun") v asg -> yes v -> quiet (main m (name :: args)).
Proof.
  intros Ha Hl Hy. unfold main. destruct (find_command name commands) as [c|] eqn:Ec.
  - apply find_command_in in Ec as [Hc Hname]. apply quiet_bind; [|intros _; exact I]. unfold run_cmd, parse_flags.
    destruct (list_eq_dec ascii_dec (cmd_name c) (bs "detect-settings")) as [Hdet|Hdet].
    + assert (Hfl : cmd_flags c = detect_flags).
      { cbn [In commands] in Hc. repeat destruct Hc as [<-|Hc]; [..|contradiction]; try discriminate Hdet; reflexivity. }
      destruct (parse_flags_unknown (cmd_flags c) args asg (bs "dryrun") (command_tables c Hc)) with (fuel := S (length args)) (st := defaults) as [x ->]; auto.
      * rewrite Hfl. reflexivity.
      * destruct Hl as (l1 & l2 & -> & _). rewrite map_app. apply in_or_app. right. left. reflexivity.
      * exact I.
    + destruct (parse_flags_dry (cmd_flags c) args asg (command_tables c Hc) Ha (S (length args)) defaults) as [[x ->]|(st & -> & Hd)]; [lia|exact I|].
      rewrite (dry_after_last _ _ v Hl Hy) in Hd. cbn [bind_io]. destruct (commands_check c m st Hc) as [Hq Hk].
      apply quiet_bind_with; [exact Hq|]. intros [b st'] Hr. apply Hk in Hr. cbn [fst snd] in *. destruct b; [|exact I].
      apply commands_quiet; [exact Hc|exact Hdet|congruence].
  - destruct (existsb _ _); [apply usage_quiet|]. unfold println. apply quiet_bind; [exact I|]. intros _. apply quiet_bind; [apply usage_quiet|]. intros _. exact I.
Qed.

(** ** What clients send and return *)

Lemma round_http w body r tr a : round w body r tr a -> forall x, In x tr -> exists r' a', x = EHttp r' a'.
Proof. induction 1; intros x [<-|Hx]; eauto; destruct Hx. Qed.

Lemma http_carries w body r tr a : round w body r tr a -> hr_body r = body -> carries tr (eq body).
Proof.
  intros Hr Hb. split.
  - intros r' a' Hi. destruct (round_body _ _ _ _ _ _ _ Hr Hb Hi) as [->| ->]; auto.
  - intros l h ok b ok' l' ->. destruct (round_http _ _ _ _ _ Hr (EWrite h ok)) as (? & ? & E); [|discriminate].
    apply in_or_app. right. left. reflexivity.
Qed.

Lemma carries_nil P : carries [] P.
Proof. split; [intros ? ? []|]. intros l h ok b ok' l' E. destruct l; discriminate. Qed.

Lemma raw_carries w c u body rw tr o : runs (raw_request w c u body rw) tr o -> carries tr (eq body).
Proof.
  intros H. apply raw_request_runs in H as [_ [->|[_ [(r & a & (_ & _ & _ & Hb & _) & Hr)|(bc & x & rest & _ & _ & -> & Hd)]]]].
  - apply carries_nil.
  - eapply http_carries; eauto.
  - split.
    + intros r a Hi. exfalso. destruct Hd as [->|[[ok ->]|[ok [y ->]]]]; cbn in Hi; intuition discriminate.
    + intros l h ok b ok' l' E. destruct Hd as [->|[[ok0 ->]|[ok0 [y ->]]]].
      * destruct l as [|? [|]]; discriminate.
      * destruct l as [|? [|? [|? [|? ?]]]]; try discriminate. injection E as _ _ _ E _ _. exact E.
      * destruct l as [|? [|? [|? [|? [|? ?]]]]]; try discriminate. injection E as _ _ _ E _ _. exact E.
Qed.

Lemma http_only_carries tr b : (forall x, In x tr -> exists r a, x = EHttp r a) ->
  (forall r a, In (EHttp r a) tr -> hr_body r = [] \/ b = hr_body r) -> carries tr (eq b).
Proof.
  intros Hx Hr. split; [exact Hr|]. intros l h ok b' ok' l' ->.
  destruct (Hx (EWrite h ok)) as (? & ? & E); [|discriminate]. apply in_or_app. right. left. reflexivity.
Qed.

Lemma no_parse_bytes w c q tr o q' : runs (request_no_parse w c q) tr (o, q') ->
  match request_marshal (set_client_fields (w_now w) c q) with
  | None => tr = [] /\ q' = request_after (set_client_fields (w_now w) c q)
  | Some (b, q2) => carries tr (eq b) /\ q' = q2
  end.
Proof.
  intros H. pose proof H as H'. apply no_parse_runs in H as [(Em & -> & _)|(b & tr1 & o1 & Em & H1 & Hc)].
  - rewrite Em. split; [reflexivity|]. unfold request_no_parse in H'. cbv zeta in H'. rewrite Em in H'.
    apply runs_done_inv in H' as [_ H']. congruence.
  - rewrite Em. split; [|reflexivity]. pose proof (raw_carries _ _ _ _ _ _ _ H1) as Hc1.
    destruct Hc as [(-> & _)|(bc & rp & tr2 & -> & _ & _ & _ & -> & H2)]; [exact Hc1|].
    apply cookies_raw_runs in H2 as (_ & _ & [->|(_ & r & a & (_ & _ & _ & Hb & _) & Hr)]); [rewrite app_nil_r; exact Hc1|].
    pose proof (http_carries _ _ _ _ _ Hr Hb) as [Hh _]. destruct Hc1 as [Hh1 _].
    cbn [raw_request] in H1. apply http_only_carries.
    + intros x Hi. apply in_app_or in Hi as [Hi|Hi]; [|exact (round_http _ _ _ _ _ Hr x Hi)].
      apply vanguard_raw_runs in H1 as (_ & _ & [->|(_ & r1 & a1 & _ & Hr1)]); [destruct Hi|]. exact (round_http _ _ _ _ _ Hr1 x Hi).
    + intros r' a' Hi. apply in_app_or in Hi as [Hi|Hi]; eauto.
Qed.

Lemma carries_weaken tr (P Q : str -> Prop) : (forall b, P b -> Q b) -> carries tr P -> carries tr Q.
Proof. intros H [H1 H2]. split; [intros r a Hi; destruct (H1 r a Hi); auto|eauto]. Qed.

Lemma no_parse_carries w c q tr o q' : runs (request_no_parse w c q) tr (o, q') -> carries tr (client_document (w_now w) c q).
Proof.
  intros H. apply no_parse_bytes in H. destruct (request_marshal _) as [[b q2]|] eqn:E.
  - destruct H as [H _]. revert H. apply carries_weaken. intros b' <-. eapply marshalled_document. exact E.
  - destruct H as [-> _]. apply carries_nil.
Qed.

Lemma client_request_answer w e c q tr x q' : runs (client_request w e c q) tr (x, q') ->
  (exists r, x = (Some r, None) /\ answered e tr r) \/ (exists err, x = (None, Some err) /\ forall r, ~ answered e tr r).
Proof.
  intros H. destruct x as [r err]. apply request_result in H as [(r0 & rp & -> & -> & H)|(-> & Hne & H)].
  - left. exists r0. split; [reflexivity|]. exists rp. tauto.
  - right. destruct err as [err|]; [|contradiction]. exists err. split; [reflexivity|]. intros r (rp & H1 & H2 & H3 & H4). eapply H; eauto.
Qed.

Lemma answered_unique e tr r r' : answered e tr r -> answered e tr r' -> r = r'.
Proof. intros (rp & H1 & _ & H2 & _) (rp' & H1' & _ & H2' & _). congruence. Qed.

(** ** Requests of the commands *)

Lemma ask_runs m c q l e : io_runs (ask m c q) l e ->
  exists t tr x, l = EClock t :: map ENet tr /\ e = Finished x /\ runs (client_request (world_at m t) (m_env m) c q) tr x.
Proof.
  unfold ask. intros H. apply io_clock_inv in H as (t & l' & -> & H). apply io_ask_inv in H as (tr & x & l2 & -> & H1 & H).
  apply io_return_inv in H as [-> ->]. exists t, tr, x. rewrite app_nil_r. auto.
Qed.

Lemma send_runs m c q l e : io_runs (send m c q) l e ->
  exists t tr x, l = EClock t :: map ENet tr /\ e = Finished (fst x) /\ runs (request_no_parse (world_at m t) c q) tr x.
Proof.
  unfold send. intros H. apply io_clock_inv in H as (t & l' & -> & H). apply io_send_inv in H as (tr & x & l2 & -> & H1 & H).
  apply io_return_inv in H as [-> ->]. exists t, tr, x. rewrite app_nil_r. auto.
Qed.

Lemma print_runs s l (e : ended unit) : io_runs (print s) l e -> l = [EPrint s] /\ e = Finished tt.
Proof. unfold print. intros H. apply io_print_inv in H as (l' & -> & H). apply io_return_inv in H as [-> ->]. auto. Qed.

Lemma print_then A s (p : io A) l e : io_runs (print s ~; p) l e -> exists l', l = EPrint s :: l' /\ io_runs p l' e.
Proof. unfold print. cbn [bind_io]. intros H. apply io_print_inv in H. exact H. Qed.

Lemma println_exit A s c l (e : ended A) : io_runs (println s ~; Exit c) l e -> l = [EPrint (s ++ [chr 10])] /\ e = Exited c.
Proof. unfold println. cbn [bind_io]. intros H. apply io_print_inv in H as (l' & -> & H). apply io_exit_inv in H as [-> ->]. auto. Qed.

Lemma ask_and_check_runs m error st c q k l e : st_dryrun st = false -> io_runs (ask_and_check m error st c q k) l e ->
  exists t tr l', l = EClock t :: map ENet tr ++ l' /\
    ((exists r, accepted (m_env m) tr r /\ io_runs (k r) l' e) \/
     ((forall r, ~ accepted (m_env m) tr r) /\ e = Exited 1 /\ network l' = [])).
Proof.
  intros Hd. unfold ask_and_check. rewrite Hd. intros H.
  apply io_runs_bind in H as [(x & l1 & l2 & H1 & H & ->)|[(c0 & -> & H1)|[-> H1]]];
    apply ask_runs in H1 as (t & tr & y & E & E2 & Hr); try discriminate.
  subst l1. injection E2 as ->. exists t, tr, l2. split; [reflexivity|]. destruct y as [y q'].
  destruct (client_request_answer _ _ _ _ _ _ _ Hr) as [(r & -> & Ha)|(err & -> & Ha)]; cbn [fst] in H.
  - cbv zeta in H. destruct (Status_Code (SignonResponse_Status (rs_signon r)) =? 0)%Z eqn:Ec.
    + left. exists r. split; [split; [exact Ha|lia]|exact H].
    + right. apply print_then in H as (l' & -> & H). apply io_exit_inv in H as [-> ->].
      split; [|auto]. intros r' [Ha' Hc]. rewrite (answered_unique _ _ _ _ Ha Ha') in Ec. lia.
  - right. split; [intros r [Ha' _]; eapply Ha; eauto|]. destruct error as [s|].
    + apply println_exit in H as [-> ->]. auto.
    + apply io_exit_inv in H as [-> ->]. auto.
Qed.

(** A step that prints nothing, or exits after a message. *)
Lemma new_request_runs m st l e : io_runs (new_request m st) l e ->
  (exists cq, e = Finished cq /\ l = []) \/ (e = Exited 1 /\ exists s, l = [EPrint s]).
Proof.
  unfold new_request. destruct (enum_new _ _) as [v []]; intros H.
  - apply io_return_inv in H as [-> ->]. eauto.
  - apply println_exit in H as [-> ->]. eauto.
Qed.

Lemma account_type_runs m st l e : io_runs (account_type m st) l e ->
  (exists t, e = Finished t /\ l = []) \/ (e = Exited 1 /\ exists s, l = [EPrint s]).
Proof.
  unfold account_type. destruct (enum_new _ _) as [v []]; intros H.
  - apply io_return_inv in H as [-> ->]. eauto.
  - apply println_exit in H as [-> ->]. eauto.
Qed.

Lemma new_uid_runs m l e : io_runs (new_uid m) l e -> exists r,
  (exists uid, random_uid r = Some uid /\ e = Finished uid /\ l = [ERand r]) \/
  (random_uid r = None /\ e = Exited 1 /\
   exists err, l = [ERand r; EPrint (bs "Error creating uid for transaction: " ++ m_error m err ++ [chr 10])]).
Proof.
  unfold new_uid. intros H. apply io_rand_inv in H as (r & l' & -> & H). exists r. destruct (random_uid r) as [uid|].
  - apply io_return_inv in H as [-> ->]. left. eauto.
  - apply println_exit in H as [-> ->]. right. split; [reflexivity|]. split; [reflexivity|]. eexists. rewrite <- app_assoc. reflexivity.
Qed.

Lemma bind_runs_cases A B (p : io A) (f : A -> io B) l e : io_runs (bind_io p f) l e ->
  forall (P : Prop),
  (forall a l1 l2, io_runs p l1 (Finished a) -> io_runs (f a) l2 e -> l = l1 ++ l2 -> P) ->
  (forall c, e = Exited c -> io_runs p l (Exited c) -> P) ->
  (e = Crashed -> io_runs p l Crashed -> P) -> P.
Proof. intros H P H1 H2 H3. apply io_runs_bind in H as [(a & l1 & l2 & Ha & Hb & E)|[(c & E & Hc)|[E Hc]]]; eauto. Qed.

Lemma not_accepted_nil e r : ~ accepted e [] r.
Proof. intros [(rp & H & _) _]. discriminate. Qed.

(** The commands that ask and print. *)
Definition query_shape (p : machine -> settings -> io unit) (show : Response -> io unit) : Prop :=
  forall m st l e, io_runs (p m st) l e ->
  (st_dryrun st = true /\ network l = [] /\ (e = Finished tt \/ e = Exited 1)) \/
  (e = Exited 1 /\ forall r, ~ accepted (m_env m) (network l) r) \/
  (exists r l1 l2, l = l1 ++ l2 /\ accepted (m_env m) (network l1) r /\ printed l1 = [] /\ io_runs (show r) l2 e).

Lemma query_shape_make p show cont :
  (forall m st l e, io_runs (p m st) l e ->
     (e = Exited 1 /\ network l = []) \/
     exists l1 l2 error c q, l = l1 ++ l2 /\ network l1 = [] /\ printed l1 = [] /\
       io_runs (ask_and_check m error st c q cont) l2 e) ->
  show = cont -> query_shape p show.
Proof.
  intros Hp -> m st l e H. apply Hp in H as [[-> Hn]|(l1 & l2 & error & c & q & -> & Hn & Hpr & H)].
  - right. left. split; [reflexivity|]. intros r. rewrite Hn. apply not_accepted_nil.
  - destruct (st_dryrun st) eqn:Hd.
    { left. split; [reflexivity|]. unfold ask_and_check in H. rewrite Hd in H. unfold print_request, println in H. apply io_clock_inv in H as (t & l' & -> & H).
      destruct (request_marshal _) as [[b q']|]; apply io_print_inv in H as (l3 & -> & H); apply io_return_inv in H as [-> ->];
        rewrite network_app, Hn; split; auto. }
    right. apply ask_and_check_runs in H as (t & tr & l' & -> & [(r & Ha & Hk)|(Ha & -> & Hl')]); [| |exact Hd].
    + right. exists r, (l1 ++ EClock t :: map ENet tr), l'. split; [rewrite <- app_assoc; reflexivity|].
      rewrite network_app, Hn. split; [|split; [|exact Hk]].
      * change (network (EClock t :: map ENet tr)) with (network (map ENet tr)). rewrite network_net. exact Ha.
      * rewrite printed_app, Hpr. change (printed (EClock t :: map ENet tr)) with (printed (map ENet tr)). apply printed_net.
    + left. split; [reflexivity|]. rewrite network_app, Hn.
      change (network (EClock t :: map ENet tr ++ l')) with (network (map ENet tr ++ l')). rewrite network_app, network_net, Hl', app_nil_r. exact Ha.
Qed.

Ltac prelude H :=
  repeat (apply io_runs_bind in H as [(?a & ?l1 & ?l2 & ?H1 & H & ->)|[(?c & -> & H)|[-> H]]];
    [match goal with
     | X : io_runs (new_request _ _) _ _ |- _ => apply new_request_runs in X as [(?cq & ?E & ->)|[?E _]]; [injection E as ->|discriminate]
     | X : io_runs (account_type _ _) _ _ |- _ => apply account_type_runs in X as [(?t & ?E & ->)|[?E _]]; [injection E as ->|discriminate]
     | X : io_runs (new_uid _) _ _ |- _ => apply new_uid_runs in X as (?r & [(?uid & ?Er & ?E & ->)|(_ & ?E & _)]); [injection E as ->|discriminate]
     end
    |left; match goal with
     | X : io_runs (new_request _ _) _ _ |- _ => apply new_request_runs in X as [(?cq & ?E & _)|[?E (?s & ->)]]; [discriminate|injection E as ->]
     | X : io_runs (account_type _ _) _ _ |- _ => apply account_type_runs in X as [(?t & ?E & _)|[?E (?s & ->)]]; [discriminate|injection E as ->]
     | X : io_runs (new_uid _) _ _ |- _ => apply new_uid_runs in X as (?r & [(?uid & _ & ?E & _)|(_ & ?E & (?s & ->))]); [discriminate|injection E as ->]
     end; split; reflexivity
    |exfalso; match goal with
     | X : io_runs (new_request _ _) _ _ |- _ => apply new_request_runs in X as [(?cq & ?E & _)|[?E _]]; discriminate
     | X : io_runs (account_type _ _) _ _ |- _ => apply account_type_runs in X as [(?t & ?E & _)|[?E _]]; discriminate
     | X : io_runs (new_uid _) _ _ |- _ => apply new_uid_runs in X as (?r & [(?uid & _ & ?E & _)|(_ & ?E & _)]); discriminate
     end]).

Lemma bank_shape : query_shape transactions_bank print_bank.
Proof.
  eapply query_shape_make; [|reflexivity]. intros m st l e H. unfold transactions_bank in H. prelude H.
  right. exists [ERand r]. eexists _, _, _, _. split; [reflexivity|]. split; [reflexivity|]. split; [reflexivity|]. exact H.
Qed.

Lemma cc_shape : query_shape transactions_cc print_cc.
Proof.
  eapply query_shape_make; [|reflexivity]. intros m st l e H. unfold transactions_cc in H. prelude H.
  right. exists [ERand r]. eexists _, _, _, _. split; [reflexivity|]. split; [reflexivity|]. split; [reflexivity|]. exact H.
Qed.

Lemma inv_shape : query_shape transactions_inv print_inv.
Proof.
  eapply query_shape_make; [|reflexivity]. intros m st l e H. unfold transactions_inv in H. prelude H.
  right. exists [ERand r]. eexists _, _, _, _. split; [reflexivity|]. split; [reflexivity|]. split; [reflexivity|]. exact H.
Qed.
