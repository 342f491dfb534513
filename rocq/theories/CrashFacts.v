(** Proofs for C90: interrupted programs and the file of a download. *)
From Coq Require Import QArith Lia Bool ZifyBool ZifyNat ZifyN.
From Verif Require Import GoStr SpecStr GoStrFacts GoNum GoUint GoTime Types Enums Records Messages Codec Document Wire Clients SpecClients Cli SpecAmountText
  SpecCli SpecFlags CliFacts CliRuns FlagFacts SpecCrash.
Close Scope Q_scope.

(** Every interrupted program can go on. *)
Lemma net_ends A (p : net A) : exists tr x, runs p tr x.
Proof.
  induction p as [a|r k IH|h k IH|b k IH|k IH].
  - exists [], a. constructor.
  - destruct (IH None) as (tr & x & H). (do 2 eexists; econstructor; eassumption).
  - destruct (IH false) as (tr & x & H). (do 2 eexists; econstructor; eassumption).
  - destruct (IH false) as (tr & x & H). (do 2 eexists; econstructor; eassumption).
  - destruct (IH None) as (tr & x & H). (do 2 eexists; econstructor; eassumption).
Qed.

Lemma net_goes_on A (p : net A) tr : begins p tr -> exists tr2 x, runs p (tr ++ tr2) x.
Proof.
  induction 1 as [p|r k a tr H (tr2 & x & IH)|h k a tr H (tr2 & x & IH)|b k a tr H (tr2 & x & IH)|k a tr H (tr2 & x & IH)];
    [apply net_ends|..]; cbn [app]; (do 2 eexists; econstructor; eassumption).
Qed.

Lemma io_ends A (p : io A) : exists l e, io_runs p l e.
Proof.
  induction p as [a|c| |s k (l & e & IH)|n k (l & e & IH)|k IH|k IH|k IH|n k IH|b k IH|p k IH|p k IH];
    try (do 2 eexists; econstructor; eassumption); try (do 2 eexists; constructor; fail).
  - destruct (IH zero_time) as (l & e & H). (do 2 eexists; econstructor; eassumption).
  - destruct (IH RandErr) as (l & e & H). (do 2 eexists; econstructor; eassumption).
  - destruct (IH None) as (l & e & H). (do 2 eexists; econstructor; eassumption).
  - destruct (IH false) as (l & e & H). (do 2 eexists; econstructor; eassumption).
  - destruct (IH false) as (l & e & H). (do 2 eexists; econstructor; eassumption).
  - destruct (net_ends _ p) as (tr & x & Hp). destruct (IH x) as (l & e & H). (do 2 eexists; econstructor; eassumption).
  - destruct (net_ends _ p) as (tr & x & Hp). destruct (IH x) as (l & e & H). (do 2 eexists; econstructor; eassumption).
Qed.

Lemma io_goes_on A (p : io A) l : io_begins p l -> exists l2 e, io_runs p (l ++ l2) e.
Proof.
  induction 1 as [p|s k l H (l2 & e & IH)|n k l H (l2 & e & IH)|k x l H (l2 & e & IH)|k x l H (l2 & e & IH)|k x l H (l2 & e & IH)
    |n k x l H (l2 & e & IH)|b k x l H (l2 & e & IH)|p k tr H|p k tr x l Hp H (l2 & e & IH)|p k tr H|p k tr x l Hp H (l2 & e & IH)];
    [apply io_ends|..]; cbn [app]; try (do 2 eexists; econstructor; eassumption).
  - apply net_goes_on in H as (tr2 & x & H). destruct (io_ends _ (k x)) as (l & e & Hk). exists (map ENet tr2 ++ l), e.
    rewrite app_assoc, <- map_app. econstructor; eassumption.
  - exists l2, e. rewrite <- app_assoc. econstructor; eassumption.
  - apply net_goes_on in H as (tr2 & x & H). destruct (io_ends _ (k x)) as (l & e & Hk). exists (map ENet tr2 ++ l), e.
    rewrite app_assoc, <- map_app. econstructor; eassumption.
  - exists l2, e. rewrite <- app_assoc. econstructor; eassumption.
Qed.

Lemma runs_begins A (p : net A) tr x : runs p tr x -> begins p tr.
Proof. induction 1; constructor; assumption. Qed.

Lemma io_runs_begins A (p : io A) l e : io_runs p l e -> io_begins p l.
Proof. induction 1; try constructor; try assumption; [eapply ib_send|eapply ib_ask]; eassumption. Qed.

(** Only the file operations matter. *)
Lemma disk_files d o l d' : disk_after d o l d' -> disk_after d o (filter file_event l) d'.
Proof.
  induction 1; cbn [filter file_event]; try (econstructor; eassumption).
  rewrite H. exact IHdisk_after.
Qed.

Lemma files_disk d o l d' : disk_after d o (filter file_event l) d' -> disk_after d o l d'.
Proof.
  revert d o. induction l as [|x l IH]; cbn [filter]; intros d o H; [exact H|].
  destruct (file_event x) eqn:E; [|apply da_other; auto].
  inversion H; subst; try (econstructor; eauto; fail). 
Qed.

Lemma put_same d f c : put d f c f = Some c.
Proof. unfold put. rewrite (proj2 (str_eqb_eq f f) eq_refl). reflexivity. Qed.

Lemma put_other d f c g : g <> f -> put d f c g = d g.
Proof. intros H. unfold put. destruct (str_eqb g f) eqn:E; [apply str_eqb_eq in E; contradiction|reflexivity]. Qed.

(** Programs that leave the files alone. *)
Fixpoint fileless {A} (p : io A) : Prop :=
  match p with
  | Return _ | Exit _ | Panic => True
  | Print _ k => fileless k
  | Sleep _ k => fileless k
  | Clock k => forall x, fileless (k x)
  | Rand k => forall x, fileless (k x)
  | Prompt k => forall x, fileless (k x)
  | Create _ _ | Save _ _ => False
  | Send _ k => forall x, fileless (k x)
  | Ask _ k => forall x, fileless (k x)
  end.

Lemma fileless_runs A (p : io A) l e : io_runs p l e -> fileless p -> filter file_event l = [].
Proof.
  induction 1; cbn [fileless filter file_event]; intros Hs; try contradiction; auto.
  - rewrite filter_app, files_net. auto.
  - rewrite filter_app, files_net. auto.
Qed.

Lemma fileless_bind A B (p : io A) (f : A -> io B) : fileless p -> (forall a, fileless (f a)) -> fileless (bind_io p f).
Proof. intros Hp Hf. induction p; cbn [fileless bind_io] in *; auto. Qed.

Lemma fileless_each A (l : list A) f : (forall x, fileless (f x)) -> fileless (each l f).
Proof. intros Hf. induction l as [|x l IH]; cbn [each]; [exact I|]. apply fileless_bind; auto. Qed.

Lemma fileless_counting A (l : list A) f : (forall n x, fileless (f n x)) -> forall n, fileless (each_counting l n f).
Proof. intros Hf. induction l as [|x l IH]; cbn [each_counting]; intros n; [exact I|]. apply fileless_bind; auto. Qed.

Ltac quick := repeat first
  [ exact I
  | progress intros
  | apply fileless_bind
  | apply fileless_each
  | apply fileless_counting
  | progress cbn [fileless println print fst snd]
  | progress cbv zeta
  | match goal with |- fileless (match ?x with _ => _ end) => destruct x end ].

Lemma print_request_fileless m c q : fileless (print_request m c q).
Proof. unfold print_request. quick. Qed.
Lemma ask_fileless m er st c q k : (forall r, fileless (k r)) -> fileless (ask_and_check m er st c q k).
Proof. intros Hk. unfold ask_and_check, ask. destruct (st_dryrun st); [apply print_request_fileless|]. quick. apply Hk. Qed.
Lemma new_request_fileless m st : fileless (new_request m st).
Proof. unfold new_request. destruct (enum_new _ _) as [v [|]]; quick. Qed.
Lemma new_uid_fileless m : fileless (new_uid m).
Proof. unfold new_uid. quick. Qed.
Lemma account_type_fileless m st : fileless (account_type m st).
Proof. unfold account_type. destruct (enum_new _ _) as [v [|]]; quick. Qed.
Lemma print_transaction_fileless cur t : fileless (print_transaction cur t).
Proof. unfold print_transaction. quick. Qed.
Lemma print_cc_transaction_fileless cur t : fileless (print_cc_transaction cur t).
Proof. unfold print_cc_transaction. quick. Qed.
Lemma print_bank_fileless r : fileless (print_bank r).
Proof. unfold print_bank. quick; apply print_transaction_fileless. Qed.
Lemma print_cc_fileless r : fileless (print_cc r).
Proof. unfold print_cc. quick; apply print_cc_transaction_fileless. Qed.
Lemma print_inv_fileless r : fileless (print_inv r).
Proof. unfold print_inv. quick; apply print_transaction_fileless. Qed.
Lemma try_fileless m st id ver version noindent : fileless (try_profile m st id ver version noindent).
Proof. unfold try_profile, ask. quick; apply new_uid_fileless. Qed.
Lemma detect_fileless m st : fileless (detect_settings m st).
Proof.
  unfold detect_settings. apply fileless_bind; [|intros; exact I].
  apply fileless_counting; intros. apply fileless_counting; intros. apply fileless_counting; intros. apply fileless_counting; intros.
  unfold attempt. apply fileless_bind; [apply try_fileless|]. quick.
Qed.

Lemma commands_fileless c m st : In c commands -> ~ In (cmd_name c) downloads -> fileless (cmd_do c m st).
Proof.
  intros H Hn. cbn [In commands] in H. repeat destruct H as [<-|H]; [..|contradiction]; cbn [cmd_do];
    try (destruct (Hn (or_introl eq_refl)); fail);
    try (destruct (Hn (or_intror (or_introl eq_refl))); fail);
    try (destruct (Hn (or_intror (or_intror (or_introl eq_refl)))); fail);
    try (destruct (Hn (or_intror (or_intror (or_intror (or_introl eq_refl))))); fail);
    unfold get_accounts, transactions_bank, transactions_cc, transactions_inv;
    repeat lazymatch goal with
      | |- fileless (detect_settings _ _) => apply detect_fileless
      | |- fileless (new_request _ _) => apply new_request_fileless
      | |- fileless (new_uid _) => apply new_uid_fileless
      | |- fileless (account_type _ _) => apply account_type_fileless
      | |- fileless (print_bank _) => apply print_bank_fileless
      | |- fileless (print_cc _) => apply print_cc_fileless
      | |- fileless (print_inv _) => apply print_inv_fileless
      | |- fileless (ask_and_check _ _ _ _ _ _) => apply ask_fileless
      | |- fileless (bind_io _ _) => apply fileless_bind
      | |- forall _, _ => intro
      end; quick.
Qed.

Lemma check_server_fileless m st : fileless (check_server_flags m st).
Proof. unfold check_server_flags. quick. Qed.
Lemma check_download_fileless m st : fileless (check_download_flags m st).
Proof. unfold check_download_flags. apply fileless_bind; [apply check_server_fileless|]. quick. Qed.
Lemma checks_fileless c m st : In c commands -> fileless (cmd_check c m st).
Proof.
  intros H. cbn [In commands] in H. repeat destruct H as [<-|H]; [..|contradiction]; cbn [cmd_check];
    first [apply check_server_fileless|apply check_download_fileless|unfold check_profile_flags; apply check_download_fileless].
Qed.

(** File operations come last, after all that is sent and received. *)
Lemma main_files m argv l l2 e : io_runs (main m argv) (l ++ l2) e ->
  filter file_event l = [] \/
  exists name args asg, argv = name :: args /\ In name downloads /\ flag_args args asg /\ network l2 = [] /\
    download_ends (value_of (bs "filename") (bs "./response.ofx") asg) (network l) (filter file_event (l ++ l2)) e.
Proof.
  intros H. destruct argv as [|name args].
  { left. destruct (main_usage m [] _ _ ltac:(discriminate) H) as (Hp & _).
    clear H. apply Forall_app in Hp as [Hp _]. induction Hp as [|x l Hx Hp IH]; [reflexivity|]. destruct x; try contradiction. exact IH. }
  destruct (in_dec str_dec name (map fst command_texts)) as [Hn|Hn].
  2: { left. assert (Hp : Forall is_print (l ++ l2)) by (apply (main_usage m (name :: args) (l ++ l2) e); [intros n r [= <- <-]; exact Hn|exact H]).
       clear H. apply Forall_app in Hp as [Hp _]. induction Hp as [|x l Hx Hp IH]; [reflexivity|]. destruct x; try contradiction. exact IH. }
  destruct (line_reads name args Hn) as (r & Hr & _). destruct (line_main m name args r Hn Hr) as (c & Hc & E).
  destruct (command_named name Hn) as (c' & Hc' & Hcin & Hname). assert (c' = c) as -> by congruence.
  destruct r as [asg| |]; [|rewrite E in H; apply io_exit_inv in H as [Hl _]; apply app_eq_nil in Hl as [-> _]; left; reflexivity..].
  destruct (line_accepted _ _ _ Hr asg eq_refl) as [Ha _].
  destruct (in_dec str_dec name downloads) as [Hd|Hd].
  - destruct (filter file_event l) as [|x fl] eqn:Ef; [left; reflexivity|right]. exists name, args, asg.
    split; [reflexivity|]. split; [exact Hd|]. split; [exact Ha|].
    destruct (main_downloads _ _ _ _ _ _ Hd Ha H) as [(_ & Hf & _)|He].
    { rewrite filter_app, Ef in Hf. discriminate. }
    assert (Hz : network l2 = []).
    { destruct (network (l ++ l2)) as [|n0 ns] eqn:En.
      - rewrite network_app in En. apply app_eq_nil in En as [_ En]. exact En.
      - destruct (main_sends m name args asg (l ++ l2) e) as (l1 & cl & q & t & tr & l3 & Hp & El & Hn3 & _ & _);
          [apply in_or_app; left; exact Hd|exact Ha|exact H|rewrite En; discriminate|].
        assert (Hpre : filter file_event (l1 ++ EClock t :: map ENet tr) = []).
        { rewrite filter_app, (local_no_files _ (prepared_local _ _ _ _ _ _ Hp)). cbn [filter file_event app]. apply files_net. }
        assert (El' : l ++ l2 = (l1 ++ EClock t :: map ENet tr) ++ l3) by (rewrite El, <- app_assoc; reflexivity).
        apply app_eq_app in El' as (z & [[_ Ez]|[Ez _]]).
        + rewrite Ez, network_app in Hn3. apply app_eq_nil in Hn3 as [_ Hn3]. exact Hn3.
        + rewrite Ez, filter_app, Ef in Hpre. discriminate. }
    split; [exact Hz|]. rewrite network_app, Hz, app_nil_r in He. exact He.
  - left. rewrite E in H.
    assert (Hall : filter file_event (l ++ l2) = []).
    { refine (fileless_runs _ _ _ _ H _). apply fileless_bind; [|intros; exact I]. apply fileless_bind; [apply checks_fileless; exact Hcin|].
      intros x. destruct (fst x); [|quick]. apply commands_fileless; [exact Hcin|]. rewrite Hname. exact Hd. }
    rewrite filter_app in Hall. apply app_eq_nil in Hall as [Hall _]. exact Hall.
Qed.

Lemma disk_no_files d o l d' : filter file_event l = [] -> disk_after d o l d' -> d' = d.
Proof. intros E H. apply disk_files in H. rewrite E in H. inversion H. reflexivity. Qed.

(** The beginnings of what a download does to files. *)
Lemma download_disk f tr l l2 e d d' : download_ends f tr (filter file_event (l ++ l2)) e -> disk_after d None l d' ->
  (forall g, d' g = d g) \/
  exists rp p rest, last_answer tr = Some rp /\ rp_code rp = 200%Z /\ rp_body rp = p ++ rest /\ forall g, d' g = put d f p g.
Proof.
  intros He H. apply disk_files in H. rewrite filter_app in He. remember (filter file_event l ++ filter file_event l2) as L eqn:EL.
  destruct He as [Hn|rp Hl Hc|rp Hl Hc|rp Hl Hc].
  - symmetry in EL. apply app_eq_nil in EL as [EL _]. rewrite EL in H. inversion H; subst. left. reflexivity.
  - destruct (filter file_event l) as [|x [|y fl]]; [inversion H; subst; left; reflexivity| |discriminate].
    injection EL as <- _. inversion H; subst; [|discriminate].
    match goal with X : disk_after _ _ [] _ |- _ => inversion X; subst end. left. reflexivity.
  - destruct (filter file_event l) as [|x [|y [|z fl]]]; [inversion H; subst; left; reflexivity|..].
    + injection EL as <- _. inversion H; subst; [|discriminate].
      match goal with X : disk_after _ _ [] _ |- _ => inversion X; subst end. right. exists rp, [], (rp_body rp). auto.
    + injection EL as <- <- _. inversion H as [|? ? ? ? ? H1| | | |? ? ? ? ? X]; subst; [|discriminate X].
      inversion H1 as [| | | |? ? ? p rest ? ? Eb H2|? ? ? ? ? X]; subst; [|discriminate X]. inversion H2; subst.
      right. exists rp, p, rest. split; [exact Hl|]. split; [exact Hc|]. split; [exact Eb|].
      intros g. unfold put. destruct (str_eqb g f); reflexivity.
    + discriminate.
  - destruct (filter file_event l) as [|x [|y [|z fl]]]; [inversion H; subst; left; reflexivity|..].
    + injection EL as <- _. inversion H; subst; [|discriminate].
      match goal with X : disk_after _ _ [] _ |- _ => inversion X; subst end. right. exists rp, [], (rp_body rp). auto.
    + injection EL as <- <- _. inversion H as [|? ? ? ? ? H1| | | |? ? ? ? ? X]; subst; [|discriminate X].
      inversion H1 as [| | |? ? ? ? ? H2| |? ? ? ? ? X]; subst; [|discriminate X]. inversion H2; subst.
      right. exists rp, (rp_body rp), []. split; [exact Hl|]. split; [exact Hc|]. split; [symmetry; apply app_nil_r|].
      intros g. unfold put. destruct (str_eqb g f); reflexivity.
    + discriminate.
Qed.

Lemma interrupted_files m argv l d d' : io_begins (main m argv) l -> disk_after d None l d' ->
  (forall g, d' g = d g) \/
  exists name args asg rp p rest, argv = name :: args /\ In name downloads /\ flag_args args asg /\
    last_answer (network l) = Some rp /\ rp_code rp = 200%Z /\ rp_body rp = p ++ rest /\
    forall g, d' g = put d (value_of (bs "filename") (bs "./response.ofx") asg) p g.
Proof.
  intros H Hd. apply io_goes_on in H as (l2 & e & H).
  destruct (main_files _ _ _ _ _ H) as [E|(name & args & asg & E & Hn & Ha & _ & He)].
  - left. intros g. rewrite (disk_no_files _ _ _ _ E Hd). reflexivity.
  - destruct (download_disk _ _ _ _ _ _ _ He Hd) as [X|(rp & p & rest & X)]; [left; exact X|right].
    exists name, args, asg, rp, p, rest. tauto.
Qed.

Lemma interrupted_disk m argv l d : io_begins (main m argv) l -> exists d', disk_after d None l d'.
Proof.
  intros H. apply io_goes_on in H as (l2 & e & H).
  assert (G : exists d', disk_after d None (filter file_event l) d'); [|destruct G as [d' G]; exists d'; apply files_disk, G].
  destruct (main_files _ _ _ _ _ H) as [->|(name & args & asg & _ & _ & _ & _ & He)]; [eexists; constructor|].
  rewrite filter_app in He. remember (filter file_event l ++ filter file_event l2) as L eqn:EL.
  assert (Hp : exists f b, forall o, L = [] \/ L = [ECreate f false] \/ L = [ECreate f true; ESave b o] \/ L = [ECreate f true; ESave b (negb o)]).
  { destruct He as [Hx|rp Hl Hc|rp Hl Hc|rp Hl Hc]; exists (value_of (bs "filename") (bs "./response.ofx") asg);
      [exists []|exists (rp_body rp)..]; intros []; cbn [negb]; tauto. }
  destruct Hp as (f & b & Hp). specialize (Hp true). cbn [negb] in Hp.
  destruct (filter file_event l) as [|x [|y [|z fl]]]; cbn [app] in EL.
  - eexists. constructor.
  - destruct Hp as [Hp|[Hp|[Hp|Hp]]]; rewrite Hp in EL; [discriminate|..]; injection EL as <- _; eexists; repeat constructor.
  - destruct Hp as [Hp|[Hp|[Hp|Hp]]]; rewrite Hp in EL; try discriminate; injection EL as <- <- _.
    + eexists. apply da_create, da_save. constructor.
    + eexists. apply da_create. apply (da_part _ _ _ [] b); [reflexivity|]. constructor.
  - destruct Hp as [Hp|[Hp|[Hp|Hp]]]; rewrite Hp in EL; discriminate.
Qed.

(** A download that ends with status 0 after it has contacted the server. *)
Lemma ended_files m name args asg l e d d' : In name downloads -> flag_args args asg -> io_runs (main m (name :: args)) l e ->
  disk_after d None l d' -> network l <> [] -> status e = 0%Z ->
  exists rp, last_answer (network l) = Some rp /\ rp_code rp = 200%Z /\
    forall g, d' g = put d (value_of (bs "filename") (bs "./response.ofx") asg) (rp_body rp) g.
Proof.
  intros Hn Ha H Hd Hnet Hs. destruct (main_downloads _ _ _ _ _ _ Hn Ha H) as [(X & _)|He]; [contradiction|].
  apply disk_files in Hd. destruct He as [Hx|rp Hl Hc|rp Hl Hc|rp Hl Hc]; try discriminate Hs.
  exists rp. split; [exact Hl|]. split; [exact Hc|]. inversion Hd as [|? ? ? ? ? H1| | | |? ? ? ? ? X]; subst; [|discriminate X].
  inversion H1 as [| | |? ? ? ? ? H2| |? ? ? ? ? X]; subst; [|discriminate X]. inversion H2; subst.
  intros g. unfold put. destruct (str_eqb g _); reflexivity.
Qed.
