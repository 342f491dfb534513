(** Proofs about when the tool sends its request. *)
From Coq Require Import QArith Lia Bool ZifyBool ZifyNat ZifyN.
From Verif Require Import GoStr SpecStr GoStrFacts GoNum GoNumFacts GoTime Types Enums EnumTables EnumFacts Records Common Messages Codec Document SpecDocument Wire Url Clients
  SpecClients ClientFacts Accessors SpecValid ValidFacts SpecUrl UrlFacts SetsFacts FilingFacts TreeFacts Cli SpecCli SpecFlags SpecErrors SendFacts CliFacts CliRuns CliDry FlagFacts CliDetect ErrorFacts SpecReady.
Close Scope Q_scope.

(** ** The network *)

(** The last step of a command. *)
Lemma final_sends m st c q name f l e : bc_HTTPClient (basic_of c) = None -> st_dryrun st = false -> final m st c q name f -> io_runs f l e ->
  exists t rest, l = EClock t :: rest /\ (forall x, In x (inputs rest) -> False) /\
  (network l <> [] <-> request_marshal (set_client_fields t c q) <> None /\ exists host path, names (rq_url q) host path).
Proof.
  intros Hc Hd Hf H.
  assert (K : forall t tr l2, network l2 = [] -> inputs l2 = [] ->
    (tr <> [] <-> request_marshal (set_client_fields t c q) <> None /\ exists host path, names (rq_url q) host path) ->
    exists t' rest, EClock t :: map ENet tr ++ l2 = EClock t' :: rest /\ (forall x, In x (inputs rest) -> False) /\
    (network (EClock t :: map ENet tr ++ l2) <> [] <-> request_marshal (set_client_fields t' c q) <> None /\ exists host path, names (rq_url q) host path)).
  { intros t tr l2 N1 N2 X. exists t, (map ENet tr ++ l2). split; [reflexivity|]. split.
    - intros x. rewrite inputs_app, N2, inputs_net. intros [].
    - change (network (EClock t :: map ENet tr ++ l2)) with (network (map ENet tr ++ l2)). rewrite network_app, network_net, N1, app_nil_r. exact X. }
  destruct Hf as [? what ?|? error k Hk].
  - unfold finish_download in H. rewrite Hd in H.
    apply io_runs_bind in H as [(o & l1 & l2 & H1 & H & ->)|[(c0 & -> & H1)|[-> H1]]];
      apply send_runs in H1 as (t & tr & x & E & E2 & Hr); try discriminate.
    subst l1. destruct x as [o' q']. apply no_parse_sends in Hr; [|exact Hc].
    assert (Hx : forall s, io_runs (println s ~; Exit 1) l2 e -> network l2 = [] /\ inputs l2 = []).
    { intros s H'. apply println_exit in H' as [-> _]. split; reflexivity. }
    assert (N : network l2 = [] /\ inputs l2 = []).
    { destruct o as [[rp|] [err|]]; [eapply Hx; exact H| |eapply Hx; exact H|].
      - apply io_create_inv in H as ([] & l3 & -> & H); cbn [negb] in H.
        + apply io_save_inv in H as ([] & l4 & -> & H); cbn [negb] in H; [apply io_return_inv in H as [-> _]|apply println_exit in H as [-> _]]; split; reflexivity.
        + apply println_exit in H as [-> _]. split; reflexivity.
      - apply io_panic_inv in H as [-> _]. split; reflexivity. }
    apply (K t tr l2); [apply N|apply N|exact Hr].
  - unfold ask_and_check in H. rewrite Hd in H.
    apply io_runs_bind in H as [(x & l1 & l2 & H1 & H & ->)|[(c0 & -> & H1)|[-> H1]]];
      apply ask_runs in H1 as (t & tr & y & E & E2 & Hr); try discriminate.
    subst l1. injection E2 as ->. destruct y as [o q']. apply client_request_runs in Hr as (o' & Hr & _). apply no_parse_sends in Hr; [|exact Hc].
    assert (Hs : forall r, silent (k r)).
    { intros r. pose proof (shows_silent r) as S. cbn [combine queries In] in Hk.
      repeat destruct Hk as [Hk|Hk]; try contradiction; injection Hk as _ <-; apply S. }
    assert (N : network l2 = [] /\ inputs l2 = []).
    { cbn [fst] in H. destruct o as [[r|] [err|]].
      - destruct error; [apply println_exit in H as [-> _]|apply io_exit_inv in H as [-> _]]; split; reflexivity.
      - cbv zeta in H. destruct (_ =? 0)%Z; [eapply silent_runs; [exact H|apply Hs]|]. apply print_then in H as (l' & -> & H). apply io_exit_inv in H as [-> _]. split; reflexivity.
      - destruct error; [apply println_exit in H as [-> _]|apply io_exit_inv in H as [-> _]]; split; reflexivity.
      - apply io_panic_inv in H as [-> _]. split; reflexivity. }
    apply (K t tr l2); [apply N|apply N|exact Hr].
Qed.

(** ** Names *)

Lemma enum_new_iff t : In t all_enums -> forall s, (exists v, enum_new t s = (v, true)) <-> one_of (en_names t) s.
Proof.
  intros Ht s. unfold one_of, enum_new. destruct (enum_from_string_total t Ht s) as [(v & n & E & _ & _ & Hi & Hn)|(E & _ & Hn)]; rewrite E.
  - split; eauto.
  - split; [intros [v X]; discriminate X|]. intros (n & Hi & X). exfalso. exact (Hn n Hi X).
Qed.

(** ** Requests *)

Lemma client_fields l c : flag_client l c -> bc_HTTPClient (basic_of c) = None /\
  client_id c = match value_of (bs "appid") (bs "QWIN") l with [] => bs "OFXGO" | s => s end /\
  client_appver c = match value_of (bs "appver") (bs "2400") l with [] => bs "0001" | s => s end.
Proof.
  intros [v _]. unfold client_id, client_appver. generalize (value_of (bs "url") [] l). intros u.
  assert (E : forall bc, basic_of (get_client u bc) = bc).
  { intros bc. unfold get_client. generalize (trim_char "/"%char u). intros t.
    generalize (str_eqb (bs "https://ofx.discovercard.com") t) (str_eqb (bs "https://vesnc.vanguard.com/us/OfxDirectConnectServlet") t).
    intros [] []; reflexivity. }
  rewrite E. cbn [bc_HTTPClient bc_AppID bc_AppVer]. split; [reflexivity|]. split; reflexivity.
Qed.

Lemma signon_ready t c l u p sl : flag_client l c ->
  (signon_ok (rq_signon (set_client_fields t c (flag_request l u p sl))) <->
   len_between 1 32 u /\ len_between 1 32 p /\ length (value_of (bs "appid") (bs "QWIN") l) <= 5 /\ length (value_of (bs "appver") (bs "2400") l) <= 4).
Proof.
  intros Hc. destruct (client_fields _ _ Hc) as (_ & E1 & E2). unfold set_client_fields, flag_request, signon_ok, len_between.
  cbn [rq_signon SignonRequest_UserID SignonRequest_UserPass SignonRequest_UserKey SignonRequest_Language SignonRequest_AppID SignonRequest_AppVer].
  rewrite E1, E2.
  assert (A1 : 1 <= length (match value_of (bs "appid") (bs "QWIN") l with [] => bs "OFXGO" | s => s end) <= 5 <-> length (value_of (bs "appid") (bs "QWIN") l) <= 5).
  { generalize (value_of (bs "appid") (bs "QWIN") l). intros [|a s]; [cbn; lia|cbn [length]; lia]. }
  assert (A2 : 1 <= length (match value_of (bs "appver") (bs "2400") l with [] => bs "0001" | s => s end) <= 4 <-> length (value_of (bs "appver") (bs "2400") l) <= 4).
  { generalize (value_of (bs "appver") (bs "2400") l). intros [|a s]; [cbn; lia|cbn [length]; lia]. }
  rewrite A1, A2. clear A1 A2. cbn [length].
  generalize (length (value_of (bs "appid") (bs "QWIN") l)), (length (value_of (bs "appver") (bs "2400") l)). intros n1 n2.
  assert (P : (p <> [] /\ @nil ascii = [] \/ p = [] /\ @nil ascii <> []) <-> 1 <= length p).
  { destruct p as [|a p]; cbn [length]; [|split; [lia|intros _; left; split; [discriminate|reflexivity]]].
    split; [intros [[X _]|[_ X]]; exfalso; apply X; reflexivity|lia]. }
  rewrite P. clear P. split.
  - intros (X1 & X2 & X3 & _ & _ & X4 & X5). split; [exact X1|]. split; [lia|]. split; assumption.
  - intros (X1 & X2 & X3 & X4). split; [exact X1|]. split; [lia|]. split; [lia|]. split; [lia|]. split; [left; reflexivity|]. split; assumption.
Qed.

Lemma type_range s t : enum_new enum_acctType s = (t, true) -> (1 <= t <= 5)%N.
Proof.
  unfold enum_new. assert (Ht : In enum_acctType all_enums) by (unfold all_enums; cbn [In]; tauto).
  destruct (enum_from_string_total enum_acctType Ht s) as [(v & n & E & Hv & _)|(E & _)]; rewrite E; intros X; [|discriminate X]. injection X as <-.
  revert Hv. unfold enum_valid. cbn. lia.
Qed.

Lemma message_ready m l uid name sl v : uid_ok uid -> command_message m l uid name sl ->
  (slots_acceptable v (request_sets sl) <->
   (In name [bs "download-bank"; bs "transactions-bank"] -> value_of (bs "bankid") [] l <> [] /\ value_of (bs "acctid") [] l <> [])).
Proof.
  intros Hu H.
  assert (One : forall set ms M sets, In (set, ms) sets -> ms = [M] -> (forall s ms', In (s, ms') sets -> (s = set /\ ms' = ms) \/ ms' = []) ->
    (slots_acceptable v sets <-> acceptable v set M)).
  { intros set ms M sets Hi -> Hs. split.
    - intros X. apply (X set [M]); [exact Hi|left; reflexivity].
    - intros X s ms' M' H1 H2. destruct (Hs s ms' H1) as [[-> ->]| ->]; [|destruct H2]. destruct H2 as [<-|[]]. exact X. }
  assert (W : forall set ms M, In (set, ms) (request_sets sl) -> ms = [M] ->
    forallb (fun p => str_eqb (fst p) set || match snd p with [] => true | _ => false end) (request_sets sl) = true -> NoDup (map fst (request_sets sl)) ->
    (slots_acceptable v (request_sets sl) <-> acceptable v set M)).
  { intros set ms M Hi E Hb Hd. apply (One set ms M _ Hi E). intros s ms' Hs. rewrite forallb_forall in Hb. specialize (Hb _ Hs). cbn [fst snd] in Hb.
    destruct ms' as [|x ms']; [right; reflexivity|]. left. rewrite orb_false_r in Hb. apply str_eqb_eq in Hb as ->. split; [reflexivity|].
    revert Hi Hs Hd. clear. generalize (request_sets sl). intros sets. induction sets as [|[a b] sets IH]; [intros []|]. cbn [In map fst].
    intros [X|X] [Y|Y] Hd; inversion Hd as [|? ? Hn Hd']; subst.
    - congruence.
    - injection X as -> ->. exfalso. apply Hn. apply in_map_iff. eexists; split; [|exact Y]. reflexivity.
    - injection Y as -> ->. exfalso. apply Hn. apply in_map_iff. eexists; split; [|exact X]. reflexivity.
    - apply IH; assumption. }
  assert (Nd : NoDup (map fst (request_sets sl))).
  { unfold request_sets. cbn [map fst]. clear. repeat constructor; cbn [In]; intuition discriminate. }
  destruct H as [name t Hn Ht|name Hn|name Hn| |].
  - rewrite (W (bs "BANKMSGSRQV1") _ _ ltac:(right; left; reflexivity) eq_refl eq_refl Nd). apply type_range in Ht.
    unfold acceptable. cbn [belongs_in message_ok encodable StatementRequest_TrnUID StatementRequest_IncludePending StatementRequest_IncTranImg StatementRequest_BankAcctFrom].
    unfold bank_acct_ok. cbn [BankAcct_BankID BankAcct_AcctID BankAcct_AcctType]. intuition discriminate.
  - rewrite (W (bs "CREDITCARDMSGSRQV1") _ _ ltac:(right; right; left; reflexivity) eq_refl eq_refl Nd).
    split; [|intros _; split; [reflexivity|split; [exact Hu|exact I]]]. intros _ X. exfalso. cbn [In] in Hn, X.
    destruct Hn as [<-|[<-|[]]]; destruct X as [X|[X|[]]]; discriminate X.
  - rewrite (W (bs "INVSTMTMSGSRQV1") _ _ ltac:(do 4 right; left; reflexivity) eq_refl eq_refl Nd).
    split; [|intros _; split; [reflexivity|split; [exact Hu|exact I]]]. intros _ X. exfalso. cbn [In] in Hn, X.
    destruct Hn as [<-|[<-|[]]]; destruct X as [X|[X|[]]]; discriminate X.
  - rewrite (W (bs "PROFMSGSRQV1") _ _ ltac:(do 12 right; left; reflexivity) eq_refl eq_refl Nd).
    split; [|intros _; split; [reflexivity|split; [exact Hu|exact I]]]. intros _ X. exfalso. destruct X as [X|[X|[]]]; discriminate X.
  - rewrite (W (bs "SIGNUPMSGSRQV1") _ _ ltac:(left; reflexivity) eq_refl eq_refl Nd).
    split; [|intros _; split; [reflexivity|split; [exact Hu|exact I]]]. intros _ X. exfalso. destruct X as [X|[X|[]]]; discriminate X.
Qed.

(** ** The commands *)

(** With a known version, a known type of account and random numbers, a command
    comes to its last step. *)
Lemma do_goes m cmd asg u p l e : In cmd commands -> cmd_name cmd <> bs "detect-settings" ->
  let st := set_password p (set_username u (settings_after asg defaults)) in
  (exists v, enum_new enum_ofxVersion (value_of (bs "ofxversion") (bs "203") asg) = (v, true)) ->
  (In (cmd_name cmd) [bs "download-bank"; bs "transactions-bank"] ->
     exists t, enum_new enum_acctType (value_of (bs "accttype") (bs "CHECKING") asg) = (t, true)) ->
  (forall r, In (ERand r) l -> random_uid r <> None) ->
  io_runs (cmd_do cmd m st) l e ->
  exists r uid c sl l2 f, random_uid r = Some uid /\ flag_client asg c /\ command_message m asg uid (cmd_name cmd) sl /\
    l = ERand r :: l2 /\ final m st c (flag_request asg u p sl) (cmd_name cmd) f /\ io_runs f l2 e.
Proof.
  intros Hc Hn st [ver Ever] Htype Hrand H. cbn [In commands] in Hc.
  assert (Hv : forall l' e', io_runs (new_request m st) l' e' -> l' = [] /\ exists c, flag_client asg c /\ e' = Finished (c, empty_request st)).
  { intros l' e' Hr. unfold new_request in Hr. change (st_ofxVersion st) with (value_of (bs "ofxversion") (bs "203") asg) in Hr. rewrite Ever in Hr.
    apply io_return_inv in Hr as [-> ->]. split; [reflexivity|]. eexists. split; [constructor; exact Ever|]. reflexivity. }
  assert (Hu : forall l' e', io_runs (new_uid m) l' e' -> (forall r, In (ERand r) l' -> random_uid r <> None) ->
    exists r uid, random_uid r = Some uid /\ e' = Finished uid /\ l' = [ERand r]).
  { intros l' e' Hr Hw. apply new_uid_runs in Hr as (r & [(uid & Er & -> & ->)|(X & -> & s & ->)]); [eauto 6|]. exfalso. exact (Hw r (or_introl eq_refl) X). }
  assert (Ht : In (cmd_name cmd) [bs "download-bank"; bs "transactions-bank"] -> forall l' e', io_runs (account_type m st) l' e' ->
    l' = [] /\ exists t, enum_new enum_acctType (value_of (bs "accttype") (bs "CHECKING") asg) = (t, true) /\ e' = Finished t).
  { intros Hb l' e' Hr. destruct (Htype Hb) as [t Et]. unfold account_type in Hr.
    change (st_acctType st) with (value_of (bs "accttype") (bs "CHECKING") asg) in Hr. rewrite Et in Hr.
    apply io_return_inv in Hr as [-> ->]. split; [reflexivity|]. exists t. split; [exact Et|reflexivity]. }
  clear Htype.
  repeat destruct Hc as [<-|Hc]; [..|contradiction]; cbn [cmd_do cmd_name] in *; try (exfalso; apply Hn; reflexivity);
    unfold download_profile, get_accounts, download_bank, download_cc, download_inv, transactions_bank, transactions_cc, transactions_inv in H;
    (apply io_runs_bind in H as [(cq & l1 & l2 & H1 & H & ->)|[(code & -> & H)|[-> H]]];
     [apply Hv in H1 as (-> & c & Hcl & E); injection E as ->; cbn [fst snd app] in H, Hrand
     |apply Hv in H as (_ & c & _ & E); discriminate E
     |apply Hv in H as (_ & c & _ & E); discriminate E]);
    try (specialize (Ht ltac:(cbn [In]; tauto));
     apply io_runs_bind in H as [(t & l3 & l4 & H1 & H & ->)|[(code & -> & H)|[-> H]]];
     [apply Ht in H1 as (-> & t' & Et & E); injection E as ->; cbn [app] in H, Hrand
     |apply Ht in H as (_ & t' & _ & E); discriminate E
     |apply Ht in H as (_ & t' & _ & E); discriminate E]; []);
    (apply io_runs_bind in H as [(uid & l5 & l6 & H1 & H & ->)|[(code & -> & H)|[-> H]]];
     [apply Hu in H1 as (r & uid' & Er & E & ->); [injection E as <-|intros r Hr; apply Hrand, in_or_app; left; exact Hr]
     |apply Hu in H as (? & ? & _ & E & _); [discriminate E|exact Hrand]
     |apply Hu in H as (? & ? & _ & E & _); [discriminate E|exact Hrand]]).
  all: exists r, uid, c; eexists; exists l6; eexists; (split; [exact Er|]); (split; [exact Hcl|]).
  all: split; [first [apply cm_profile | apply cm_accounts | apply cm_bank with (t := t'); [cbn; tauto|exact Et] | apply cm_cc; cbn; tauto | apply cm_inv; cbn; tauto]|].
  all: (split; [reflexivity|]); (split; [|exact H]).
  all: first [apply final_download; cbn; tauto | apply final_query; cbn; tauto].
Qed.

(** A whole run: the checks and then the command, or nothing more than text. *)
Lemma main_stages m name args asg l e : In name (map fst command_texts) -> command_line name args (Accepted asg) ->
  io_runs (main m (name :: args)) l e ->
  exists cmd l1 l2 ok st', find_command name commands = Some cmd /\ l = l1 ++ l2 /\
    io_runs (cmd_check cmd m (settings_after asg defaults)) l1 (Finished (ok, st')) /\
    (ok = false /\ network l2 = [] \/ ok = true /\ exists e', io_runs (cmd_do cmd m st') l2 e').
Proof.
  intros Hn' Hl H.
  destruct (line_main m name args _ Hn' Hl) as (c & Hf & E). pose proof Hf as Hf0. apply find_command_in in Hf as [Hc Ec]. rewrite E in H. clear E.
  assert (H' : exists e', io_runs (x <~ cmd_check c m (settings_after asg defaults);
                   if fst x then cmd_do c m (snd x)
                   else print [chr 10] ~; print (bs "Usage of " ++ cmd_name c ++ bs ":" ++ [chr 10]) ~; Exit 1) l e').
  { apply io_runs_bind in H as [(a & l1 & l2 & H1 & H & ->)|[(code & _ & H)|[_ H]]]; [|eauto|eauto].
    apply io_exit_inv in H as [-> _]. rewrite app_nil_r. eauto. }
  clear H. destruct H' as [e' H]. apply io_runs_bind in H as [([ok st'] & l1 & l2 & H1 & H & ->)|[(code & X & H)|[X H]]].
  2,3: apply check_says in H as (_ & ok & st' & pw & Y & _); [discriminate Y|exact Hc].
  exists c, l1, l2, ok, st'. split; [exact Hf0|]. split; [reflexivity|]. split; [exact H1|].
  cbn [fst snd] in H. destruct ok; [right; eauto|]. left. split; [reflexivity|].
  apply print_then in H as (l3 & -> & H). apply print_then in H as (l4 & -> & H). apply io_exit_inv in H as [-> _]. reflexivity.
Qed.

(** The settings that the checks leave. *)
Lemma check_leaves m name cmd asg l st' : In name (downloads ++ queries) -> find_command name commands = Some cmd ->
  io_runs (cmd_check cmd m (settings_after asg defaults)) l (Finished (true, st')) ->
  exists u p, credentials name asg l u p /\ st' = set_password p (set_username u (settings_after asg defaults)).
Proof.
  intros Hname Hf Hc. destruct (find_command_of _ Hname) as (cmd' & Hf' & _ & _ & _ & Hck).
  rewrite Hf in Hf'. injection Hf' as <-. exists (st_username st'), (st_password st').
  destruct Hck as [[E En]|[[E _]|[E _]]]; rewrite E in Hc.
  - subst name. unfold check_profile_flags in Hc. apply check_download_runs in Hc as [Hc _].
    apply (checked_profile_credentials asg _ _ _ eq_refl) in Hc as (H1 & _ & H3). split; [exact H1|exact H3].
  - apply check_download_runs in Hc as [Hc _]. apply (checked_credentials name asg _ _ _ eq_refl) in Hc as (H1 & _ & H3).
    split; [exact H1|]. rewrite H3. reflexivity.
  - apply check_server_runs in Hc. apply (checked_credentials name asg _ _ _ eq_refl) in Hc as (H1 & _ & H3).
    split; [exact H1|]. rewrite H3. reflexivity.
Qed.

Lemma if_missing_nil n d l s : if_missing n d l s = [] <-> value_of n d l <> [].
Proof.
  unfold if_missing. destruct (value_of n d l); split; intros X; try discriminate; try reflexivity.
  - destruct s; discriminate X.
  - exfalso. apply X. reflexivity.
Qed.

(** When the checks succeed. *)
Lemma check_succeeds m name cmd asg l ok st' : find_command name commands = Some cmd ->
  io_runs (cmd_check cmd m (settings_after asg defaults)) l (Finished (ok, st')) ->
  (ok = true <-> value_of (bs "url") [] asg <> [] /\ (name = bs "download-profile" \/ value_of (bs "username") [] asg <> []) /\
                 ~ In (EPrompt None) l /\ (In name downloads -> value_of (bs "filename") (bs "./response.ofx") asg <> [])).
Proof.
  intros Hf H. apply find_command_in in Hf as [Hc <-].
  apply check_says in H as (_ & ok' & st2 & pw & Y & Hpw & _ & _ & _ & Hiff); [|exact Hc]. injection Y as <- _.
  assert (B : ok = true <-> no_url asg ++ no_user (cmd_name cmd) asg ++ pw ++ no_file (cmd_name cmd) asg = []).
  { destruct ok.
    - split; [|reflexivity]. intros _. destruct (no_url asg ++ _) as [|a s]; [reflexivity|]. assert (X : true = false) by (apply Hiff; discriminate). discriminate X.
    - split; [discriminate|]. intros X. exfalso. apply (proj1 Hiff eq_refl). exact X. }
  rewrite B. clear B Hiff.
  assert (N1 : no_url asg = [] <-> value_of (bs "url") [] asg <> []) by apply if_missing_nil.
  assert (N2 : no_user (cmd_name cmd) asg = [] <-> (cmd_name cmd = bs "download-profile" \/ value_of (bs "username") [] asg <> [])).
  { unfold no_user. destruct (str_eqb_spec (cmd_name cmd) (bs "download-profile")) as [X|X]; [tauto|]. rewrite if_missing_nil. tauto. }
  assert (N3 : pw = [] <-> ~ In (EPrompt None) l).
  { destruct Hpw as [X|t X _]; [tauto|]. split; [intros Y; discriminate Y|contradiction]. }
  assert (N4 : no_file (cmd_name cmd) asg = [] <-> (In (cmd_name cmd) downloads -> value_of (bs "filename") (bs "./response.ofx") asg <> [])).
  { unfold no_file. destruct (existsb (str_eqb (cmd_name cmd)) downloads) eqn:X.
    - rewrite if_missing_nil. apply existsb_exists in X as (y & Hy & Xy). apply str_eqb_eq in Xy as <-. tauto.
    - split; [|reflexivity]. intros _ Y. exfalso. rewrite <- not_true_iff_false in X. apply X. apply existsb_exists. exists (cmd_name cmd).
      split; [exact Y|apply str_eqb_refl]. }
  rewrite <- N1, <- N2, <- N3, <- N4. split.
  - intros X. apply app_eq_nil in X as [X1 X]. apply app_eq_nil in X as [X2 X]. apply app_eq_nil in X as [X3 X4]. auto.
  - intros (-> & -> & -> & ->). reflexivity.
Qed.

Lemma credentials_local name asg l u p : credentials name asg l u p -> network l = [] /\ (forall r, ~ In (ERand r) l) /\
  (forall a, In (EPrompt a) l -> a = Some p).
Proof.
  intros [| |]; (split; [reflexivity|]); split; cbn [In]; intros x Hx; try contradiction.
  - destruct Hx as [X|[X|[]]]; discriminate X.
  - destruct Hx as [X|[X|[]]]; [discriminate X|]. injection X as <-. reflexivity.
Qed.

Lemma in_inputs_rand r l : In (ERand r) l -> In (ERand r) (inputs l).
Proof. intros H. apply filter_In. split; [exact H|reflexivity]. Qed.
Lemma in_inputs_prompt a l : In (EPrompt a) l -> In (EPrompt a) (inputs l).
Proof. intros H. apply filter_In. split; [exact H|reflexivity]. Qed.

Lemma random_iff r : random_uid r <> None <-> exists b, r = RandRead b 16.
Proof.
  unfold random_uid. destruct r as [|b n]; [split; [intros X; exfalso; apply X; reflexivity|intros [b X]; discriminate X]|].
  destruct (n =? 16)%Z eqn:E; cbn [negb].
  - apply Z.eqb_eq in E as ->. split; [eauto|]. intros _ X. discriminate X.
  - split; [intros X; exfalso; apply X; reflexivity|]. intros [b' X]. injection X as _ ->. discriminate E.
Qed.

Lemma names_nonempty u h p : names u h p -> u <> [].
Proof. intros H. apply names_https in H as [s ->]. discriminate. Qed.

Lemma known_version s : (exists v, enum_new enum_ofxVersion s = (v, true)) <-> one_of version_names s.
Proof. apply (enum_new_iff enum_ofxVersion). unfold all_enums. cbn [In]. tauto. Qed.
Lemma known_type s : (exists v, enum_new enum_acctType s = (v, true)) <-> one_of type_names s.
Proof. apply (enum_new_iff enum_acctType). unfold all_enums. cbn [In]. tauto. Qed.

(** ** The theorem *)

Lemma main_ready m name args asg l e : In name (downloads ++ queries) -> command_line name args (Accepted asg) ->
  turned_on (bs "dryrun") asg = false -> io_runs (main m (name :: args)) l e ->
  (network l <> [] <-> flags_right name asg /\ surroundings_work l).
Proof.
  intros Hn Hl Hdry H. destruct (main_stages _ _ _ _ _ _ (proj1 (line_of_command name Hn)) Hl H) as (cmd & l1 & l2 & ok & st' & Hf & -> & Hck & Hdo).
  pose proof (check_succeeds _ _ _ _ _ _ _ Hf Hck) as Hok.
  assert (Hcmd := find_command_in _ _ _ Hf). destruct Hcmd as [Hc Ec].
  assert (Hnd : cmd_name cmd <> bs "detect-settings") by (rewrite Ec; apply (line_of_command name Hn)).
  assert (Hloc : network l1 = []).
  { apply local_network. apply check_says in Hck as [X _]; [exact X|exact Hc]. }
  destruct Hdo as [[-> Hn2]|[-> [e' Hdo]]].
  { rewrite network_app, Hloc, Hn2. split; [intros X; exfalso; apply X; reflexivity|]. intros [[(h & pa & Fu) Fl _ _ _ Ff _] [Sp _]]. exfalso.
    assert (X : false = true); [|discriminate X]. apply Hok. split; [eapply names_nonempty, Fu|]. split.
    { destruct Fl as [[X _]|[X _]]; [left; exact X|]. right. intros E. rewrite E in X. unfold len_between in X. cbn in X. lia. }
    split; [|exact Ff]. intros X. destruct (Sp None) as (p & Y & _); [apply in_or_app; left; exact X|discriminate Y]. }
  destruct (check_leaves _ _ _ _ _ _ Hn Hf Hck) as (u & p & Hcr & ->). destruct (credentials_local _ _ _ _ _ Hcr) as (_ & Cr & Cp).
  rewrite network_app, Hloc. cbn [app].
  (* what the last step depends on *)
  assert (K : forall r uid c sl l3 f, random_uid r = Some uid -> flag_client asg c -> command_message m asg uid name sl -> l2 = ERand r :: l3 ->
    final m (set_password p (set_username u (settings_after asg defaults))) c (flag_request asg u p sl) name f -> io_runs f l3 e' ->
    (forall a, ~ In (EPrompt a) l2) /\ (forall r', In (ERand r') l2 -> r' = r) /\
    (network l2 <> [] <->
     (exists host path, names (value_of (bs "url") [] asg) host path) /\ len_between 1 32 u /\ len_between 1 32 p /\
     length (value_of (bs "appid") (bs "QWIN") asg) <= 5 /\ length (value_of (bs "appver") (bs "2400") asg) <= 4 /\
     (In name [bs "download-bank"; bs "transactions-bank"] -> value_of (bs "bankid") [] asg <> [] /\ value_of (bs "acctid") [] asg <> []))).
  { intros r uid c sl l3 f Hr Hcl Hm -> Hfin Hrun. destruct (client_fields _ _ Hcl) as [Hh _].
    destruct (final_sends m (set_password p (set_username u (settings_after asg defaults))) c _ _ _ _ _ Hh Hdry Hfin Hrun) as (t & rest & -> & Hin & Hiff). split; [|split].
    - intros a [X|[X|X]]; [discriminate X|discriminate X|]. exact (Hin _ (in_inputs_prompt _ _ X)).
    - intros r' [X|[X|X]]; [injection X as ->; reflexivity|discriminate X|]. exfalso. exact (Hin _ (in_inputs_rand _ _ X)).
    - change (network (ERand r :: EClock t :: rest)) with (network (EClock t :: rest)). rewrite Hiff, marshal_tree.
      rewrite (signon_ready t c asg u p sl Hcl).
      pose proof (message_ready m asg uid name sl (rq_version (set_client_fields t c (flag_request asg u p sl))) (uid_length _ _ Hr) Hm) as Hmr.
      change (rq_slots (set_client_fields t c (flag_request asg u p sl))) with sl. rewrite Hmr.
      change (rq_url (flag_request asg u p sl)) with (value_of (bs "url") [] asg). clear. tauto. }
  split.
  - intros Hnet. destruct (do_runs m cmd asg u p l2 e' Hc Hnd Hdo) as [[X _]|(r & uid & c & sl & l3 & f & Hr & Hcl & Hm & E2 & Hfin & Hrun)].
    { exfalso. apply Hnet, local_network, X. }
    rewrite Ec in *. destruct (K r uid c sl l3 f Hr Hcl Hm E2 Hfin Hrun) as (K1 & K2 & K3). apply K3 in Hnet as (Hu & Lu & Lp & La & Lv & Lb).
    destruct (proj1 Hok eq_refl) as (_ & _ & _ & Ff). split; [constructor|split].
    + exact Hu.
    + destruct Hcr as [X Y|p X Y|X Y]; [right; split; [exact Lu|apply Lp]|right; split; [exact Lu|rewrite Y; cbn; lia]|left; split; assumption].
    + apply known_version. destruct Hcl as [v Ev]. eauto.
    + exact La.
    + exact Lv.
    + exact Ff.
    + intros Hb. destruct (Lb Hb) as [B1 B2]. split; [exact B1|]. split; [exact B2|]. apply known_type. revert Hb. clear - Hm.
      destruct Hm as [name t Hb Ht|name Hb|name Hb| |]; intros X; [eauto| | | |]; exfalso; cbn [In] in *.
      * destruct Hb as [<-|[<-|[]]]; destruct X as [X|[X|[]]]; discriminate X.
      * destruct Hb as [<-|[<-|[]]]; destruct X as [X|[X|[]]]; discriminate X.
      * destruct X as [X|[X|[]]]; discriminate X.
      * destruct X as [X|[X|[]]]; discriminate X.
    + intros a Ha. apply in_app_or in Ha as [Ha|Ha]; [|exfalso; exact (K1 a Ha)]. exists p. split; [exact (Cp a Ha)|exact Lp].
    + intros r' Ha. apply in_app_or in Ha as [Ha|Ha]; [exfalso; exact (Cr r' Ha)|]. rewrite (K2 r' Ha). apply random_iff. congruence.
  - intros [[Fu Fl Fv Fa Fw _ Fb] [Sp Sr]]. apply known_version in Fv. rewrite <- Ec in Fb.
    destruct (do_goes m cmd asg u p l2 e' Hc Hnd Fv) as (r & uid & c & sl & l3 & f & Hr & Hcl & Hm & E2 & Hfin & Hrun); [| |exact Hdo|].
    { intros Hb. apply known_type. apply (Fb Hb). }
    { intros r Hr. apply random_iff, Sr, in_or_app. right. exact Hr. }
    rewrite Ec in *. apply (K r uid c sl l3 f Hr Hcl Hm E2 Hfin Hrun). split; [exact Fu|].
    assert (Lup : len_between 1 32 u /\ len_between 1 32 p).
    { destruct Hcr as [X Y|p X Y|X Y].
      - destruct Fl as [[_ Z]|[Z1 Z2]]; [contradiction|]. split; [exact Z1|]. unfold len_between. split; [|exact Z2].
        destruct (value_of (bs "password") [] asg); [exfalso; apply Y; reflexivity|cbn [length]; lia].
      - destruct Fl as [[_ Z]|[Z1 Z2]]; [contradiction|]. split; [exact Z1|].
        destruct (Sp (Some p)) as (p' & E & Hp'); [apply in_or_app; left; right; left; reflexivity|]. injection E as <-. exact Hp'.
      - unfold len_between. cbn. lia. }
    split; [apply Lup|]. split; [apply Lup|]. split; [exact Fa|]. split; [exact Fw|]. intros Hb. split; apply (Fb Hb).
Qed.

(** ** detect-settings *)

Lemma attempted_sends m st x l ok : attempted m st x l ok -> exists r l', l = ERand r :: l' /\ random_uid r <> None /\
  (network l <> [] <-> exists host path, names (st_serverURL st) host path).
Proof.
  intros (r & uid & t1 & tr1 & ok1 & Hr & (_ & Ho1 & Hs1) & H). exists r.
  cbn [profile_query rq_url rq_signon SignonRequest_UserID SignonRequest_UserPass] in Hs1.
  destruct H as [(-> & -> & ->)|(-> & t2 & tr2 & (_ & _ & Hs2) & ->)].
  - eexists. split; [reflexivity|]. split; [congruence|]. change (network (ERand r :: EClock t1 :: map ENet tr1)) with (network (map ENet tr1)).
    rewrite network_net. split; [intros X; apply Hs1 in X as [X _]; exact X|]. intros _ ->. destruct (proj1 Ho1 eq_refl) as [a Ha].
    revert Ha. clear. intros (rp & E & _). discriminate E.
  - eexists. split; [reflexivity|]. split; [congruence|].
    change (network (ERand r :: EClock t1 :: map ENet tr1 ++ EClock t2 :: map ENet tr2)) with (network (map ENet tr1 ++ EClock t2 :: map ENet tr2)).
    rewrite network_app, network_net. change (network (EClock t2 :: map ENet tr2)) with (network (map ENet tr2)). rewrite network_net.
    cbn [profile_query rq_url rq_signon SignonRequest_UserID SignonRequest_UserPass] in Hs2. split.
    + intros X. destruct tr1 as [|y tr1]; [apply Hs2 in X as [X _]; exact X|]. apply Hs1. discriminate.
    + intros X Y. apply app_eq_nil in Y as [_ Y]. revert Y. apply Hs2. split; [exact X|]. unfold len_between. cbn. lia.
Qed.

Lemma prints_network p : (forall y, In y p -> exists s, y = EPrint s) -> network p = [].
Proof.
  induction p as [|y p IH]; intros H; [reflexivity|]. destruct (H y (or_introl eq_refl)) as [s ->].
  change (network (EPrint s :: p)) with (network p). apply IH. intros z Hz. apply H. right. exact Hz.
Qed.

Lemma detection_names m st k xs l e : detection m st k xs l e -> network l <> [] -> exists host path, names (st_serverURL st) host path.
Proof.
  intros H. induction H as [k|k x xs l p H Hp _|k x xs l s ns l' e H _ IH _ _|k x xs r err Hr]; intros Hn.
  - destruct (Hn eq_refl).
  - apply attempted_sends in H as (r & l' & _ & _ & H). apply H. rewrite network_app, (prints_network _ Hp), app_nil_r in Hn. exact Hn.
  - apply attempted_sends in H as (r & l0 & _ & _ & H). rewrite network_app in Hn.
    change (network (EPrint s :: ESleep ns :: l')) with (network l') in Hn. destruct (network l); [apply IH; exact Hn|]. apply H. discriminate.
  - destruct (Hn eq_refl).
Qed.

Lemma detection_sends m st k x xs l e : detection m st k (x :: xs) l e -> exists r l', l = ERand r :: l' /\
  (network l <> [] <-> random_uid r <> None /\ exists host path, names (st_serverURL st) host path).
Proof.
  intros H. pose proof (detection_names _ _ _ _ _ _ H) as Hn. inversion H as [|k0 x0 xs0 l0 p H1 Hp _|k0 x0 xs0 l0 s ns l' e0 H1 _ _ _|k0 x0 xs0 r err Hr]; subst.
  - apply attempted_sends in H1 as (r & l' & -> & Hr & Hi). exists r, (l' ++ p). split; [reflexivity|]. split; [auto|].
    intros [_ X] Y. rewrite network_app in Y. apply app_eq_nil in Y as [Y _]. apply Hi in X. contradiction.
  - apply attempted_sends in H1 as (r & l1 & -> & Hr & Hi). eexists r, _. split; [reflexivity|]. split; [auto|].
    intros [_ X] Y. rewrite network_app in Y. apply app_eq_nil in Y as [Y _]. apply Hi in X. contradiction.
  - exists r. eexists. split; [reflexivity|]. split; [intros X; destruct (X eq_refl)|]. intros [X _]. contradiction.
Qed.

Lemma no_prompt_net a tr : ~ In (EPrompt a) (map ENet tr).
Proof. intros H. apply in_map_iff in H as (y & X & _). discriminate X. Qed.

Lemma attempted_quiet m st x l ok a : attempted m st x l ok -> ~ In (EPrompt a) l.
Proof.
  intros (r & uid & t1 & tr1 & ok1 & _ & _ & [(_ & _ & ->)|(_ & t2 & tr2 & _ & ->)]) [X|[X|X]]; try discriminate X.
  - exact (no_prompt_net _ _ X).
  - apply in_app_or in X as [X|[X|X]]; [exact (no_prompt_net _ _ X)|discriminate X|exact (no_prompt_net _ _ X)].
Qed.

Lemma detection_quiet m st k xs l e a : detection m st k xs l e -> ~ In (EPrompt a) l.
Proof.
  intros H. induction H as [k|k x xs l p H Hp _|k x xs l s ns l' e H _ IH _ _|k x xs r err Hr]; intros X.
  - destruct X.
  - apply in_app_or in X as [X|X]; [exact (attempted_quiet _ _ _ _ _ _ H X)|]. apply Hp in X as [s X]. discriminate X.
  - apply in_app_or in X as [X|[X|[X|X]]]; [exact (attempted_quiet _ _ _ _ _ _ H X)|discriminate X|discriminate X|exact (IH X)].
  - destruct X as [X|[X|[]]]; discriminate X.
Qed.

Lemma first_random h1 r1 h2 l1 r l2 : (forall r', ~ In (ERand r') h1) -> (forall r', ~ In (ERand r') l1) ->
  l1 ++ ERand r :: l2 = h1 ++ ERand r1 :: h2 -> r = r1.
Proof.
  revert l1. induction h1 as [|y h1 IH]; intros [|z l1] H1 H2 E; cbn [app] in E.
  - congruence.
  - exfalso. injection E as -> _. exact (H2 r1 (or_introl eq_refl)).
  - exfalso. injection E as <- _. exact (H1 r (or_introl eq_refl)).
  - apply (IH l1); [intros r' X; apply (H1 r'); right; exact X|intros r' X; apply (H2 r'); right; exact X|congruence].
Qed.

Lemma main_detects_ready m args asg l e : command_line (bs "detect-settings") args (Accepted asg) ->
  io_runs (main m (bs "detect-settings" :: args)) l e ->
  (network l <> [] <-> (exists host path, names (value_of (bs "url") [] asg) host path) /\ value_of (bs "username") [] asg <> [] /\
     ~ In (EPrompt None) l /\ random_at_first l).
Proof.
  intros Hl H. assert (Hn : In (bs "detect-settings") (map fst command_texts)) by (cbn [map fst command_texts In]; tauto).
  destruct (main_stages _ _ _ _ _ _ Hn Hl H) as (cmd & l1 & l2 & ok & st' & Hf & -> & Hck & Hdo).
  pose proof (check_succeeds _ _ _ _ _ _ _ Hf Hck) as Hok. pose proof (find_command_in _ _ _ Hf) as [Hc Ec].
  assert (Hloc : network l1 = []). { apply local_network. apply check_says in Hck as [X _]; [exact X|exact Hc]. }
  rewrite network_app, Hloc. cbn [app].
  assert (Np : bs "detect-settings" <> bs "download-profile") by discriminate.
  destruct Hdo as [[-> Hn2]|[-> [e' Hdo]]].
  { rewrite Hn2. split; [intros X; destruct (X eq_refl)|]. intros ((h & pa & Fu) & Fl & Fp & _). exfalso.
    assert (X : false = true); [|discriminate X]. apply Hok. split; [eapply names_nonempty, Fu|]. split; [right; exact Fl|].
    split; [intros X; apply Fp, in_or_app; left; exact X|]. intros X. exfalso. cbn [In downloads] in X. repeat destruct X as [X|X]; discriminate X || contradiction. }
  assert (E : cmd_check cmd = check_server_flags /\ cmd_do cmd = detect_settings).
  { assert (X : exists c, find_command (bs "detect-settings") commands = Some c /\ cmd_check c = check_server_flags /\ cmd_do c = detect_settings).
    { eexists. split; [reflexivity|]. split; reflexivity. }
    destruct X as (c & Hf' & X). rewrite Hf in Hf'. injection Hf' as <-. exact X. }
  destruct E as [Eck Edo]. rewrite Eck in Hck. rewrite Edo in Hdo. apply check_server_runs in Hck.
  apply (checked_credentials (bs "detect-settings") asg _ _ _ eq_refl) in Hck as (Hcr & _ & Est).
  assert (Eu : st_serverURL st' = value_of (bs "url") [] asg) by (rewrite Est; reflexivity).
  destruct (credentials_local _ _ _ _ _ Hcr) as (_ & Cr & _).
  destruct (proj1 Hok eq_refl) as (_ & Hu & Hp & _). destruct Hu as [X|Hu]; [contradiction|].
  apply detect_runs in Hdo. pose proof (fun a => detection_quiet _ _ _ _ _ _ a Hdo) as Hq. destruct combinations as [|x xs] eqn:Ex; [discriminate Ex|]. apply detection_sends in Hdo as (r & l3 & E & Hi).
  rewrite Hi, Eu. rewrite random_iff. split.
  - intros [Hb Hx]. split; [exact Hx|]. split; [exact Hu|]. split.
    + intros X. apply in_app_or in X as [X|X]; [exact (Hp X)|exact (Hq _ X)].
    + intros h1 r' h2 E' Hno. rewrite E in E'. rewrite <- (first_random _ _ _ _ _ _ Hno Cr E'). exact Hb.
  - intros (Hx & _ & _ & Hr). split; [|exact Hx]. apply (Hr l1 r l3); [rewrite E; reflexivity|exact Cr].
Qed.
