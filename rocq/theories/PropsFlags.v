(** C84 and C85: the command lines of the tool, and how long it waits. *)
From Coq Require Import QArith Lia Bool ZifyBool ZifyNat ZifyN.
From Verif Require Import GoStr SpecStr GoStrFacts GoNum GoUint GoTime Types Enums Records Messages Codec Document Wire Clients ClientFacts Cli
  SpecAmountText SpecCli SpecFlags Samples CliFacts CliRuns FlagFacts CliDetect SleepFacts CliSamples.
Close Scope Q_scope.

(** C84: every command line of a command is read in exactly one way. *)
Theorem C84_one_reading : forall name args, In name (map fst command_texts) ->
  exists r, command_line name args r /\ forall r', command_line name args r' -> r' = r.
Proof. exact line_reads. Qed.
Print Assumptions C84_one_reading.

(** A line with an unknown flag, a value its flag does not take, a missing value or
    dashes without a name does nothing: the program ends with status 2. *)
Theorem C84_refused : forall m name args l e, In name (map fst command_texts) -> command_line name args Refused ->
  io_runs (main m (name :: args)) l e -> l = [] /\ e = Exited 2.
Proof.
  intros m name args l e Hn Hl H. destruct (line_main m name args _ Hn Hl) as (c & _ & E). rewrite E in H.
  apply io_exit_inv in H. exact H.
Qed.
Print Assumptions C84_refused.

Theorem C84_helped : forall m name args l e, In name (map fst command_texts) -> command_line name args Helped ->
  io_runs (main m (name :: args)) l e -> l = [] /\ e = Exited 0.
Proof.
  intros m name args l e Hn Hl H. destruct (line_main m name args _ Hn Hl) as (c & _ & E). rewrite E in H.
  apply io_exit_inv in H. exact H.
Qed.
Print Assumptions C84_helped.

(** The flags of an accepted line are those of the other theorems about the tool
    (C48-C50, C57-C63), and each takes its value. *)
Theorem C84_accepted : forall name args l, command_line name args (Accepted l) ->
  flag_args args l /\ Forall (fun p => takes name (fst p) (snd p)) l.
Proof. intros name args l H. exact (line_accepted name args _ H l eq_refl). Qed.
Print Assumptions C84_accepted.

(** Neither the order of the flags nor how they are written nor earlier values
    matter: only the last value of each flag, and its default if there is none. *)
Theorem C84_last_value : forall m name args args' l l' h e, In name (map fst command_texts) ->
  command_line name args (Accepted l) -> command_line name args' (Accepted l') -> same_values l l' ->
  (io_runs (main m (name :: args)) h e <-> io_runs (main m (name :: args')) h e).
Proof.
  intros m name args args' l l' h e Hn H H' Hs. rewrite (line_same m name args args' l l' Hn H H' Hs). reflexivity.
Qed.
Print Assumptions C84_last_value.

(** Without a command, or with one that does not exist, the commands are listed and
    nothing else is done. *)
Theorem C84_usage : forall m args l e, (forall name rest, args = name :: rest -> ~ In name (map fst command_texts)) ->
  io_runs (main m args) l e ->
  Forall is_print l /\ in_order (map fst command_texts) (printed l) /\
  ((exists name rest, args = name :: rest /\ help_word name) /\ e = Finished tt \/
   (forall name rest, args = name :: rest -> ~ help_word name) /\ e = Exited 1).
Proof. exact main_usage. Qed.
Print Assumptions C84_usage.

Lemma plain_name n : existsb (Ascii.eqb "=") n = false -> match n with [] => false | c :: _ => negb (Ascii.eqb c "-") end = true -> flag_name n.
Proof.
  intros H1 H2. destruct n as [|c n]; [discriminate|]. split; [discriminate|]. split.
  - cbn [hd]. intros ->. discriminate H2.
  - intros X. rewrite <- not_true_iff_false in H1. apply H1. apply existsb_exists. exists "="%char. split; [exact X|reflexivity].
Qed.

Example C84_accepted_case :
  command_line (bs "download-cc") [bs "-fid=1"; bs "--acctid"; bs "-5"; bs "-dryrun"; bs "x"; bs "-y"]
    (Accepted [(bs "fid", bs "1"); (bs "acctid", bs "-5"); (bs "dryrun", bs "true")]).
Proof.
  apply (cl_flag _ _ (bs "fid") (bs "1") [bs "--acctid"; bs "-5"; bs "-dryrun"; bs "x"; bs "-y"] (Accepted _)).
  - apply (ff_equals (bs "-") (bs "fid") (bs "1")); [left; reflexivity|apply plain_name; reflexivity].
  - eapply takes_text; [unfold command_texts; cbn [In]; tauto|cbn [In server_texts app]; tauto].
  - apply (cl_flag _ _ (bs "acctid") (bs "-5") [bs "-dryrun"; bs "x"; bs "-y"] (Accepted _)).
    + apply (ff_value (bs "--") (bs "acctid") (bs "-5")); [right; reflexivity|apply plain_name; reflexivity|rewrite <- switchb_iff; discriminate].
    + eapply takes_text; [unfold command_texts; cbn [In]; tauto|cbn [In server_texts app]; tauto].
    + apply (cl_flag _ _ (bs "dryrun") (bs "true") [bs "x"; bs "-y"] (Accepted _)).
      * apply (ff_switch (bs "-") (bs "dryrun")); [left; reflexivity|apply plain_name; reflexivity|apply switchb_iff; reflexivity].
      * apply takes_switch; [discriminate|apply switchb_iff; reflexivity|left; cbn; tauto].
      * apply cl_other. right; left. discriminate.
Qed.

Example C84_same_case :
  let l := [(bs "fid", bs "1"); (bs "acctid", bs "7"); (bs "fid", bs "2"); (bs "appid", bs "QWIN")] in
  let l' := [(bs "fid", bs "2"); (bs "noindent", bs "true"); (bs "acctid", bs "7"); (bs "noindent", bs "F")] in
  same_values l l' /\ l <> l'.
Proof.
  cbv zeta. split; [|discriminate]. split; [|split].
  - intros n. unfold value_of. cbn [fold_left fst snd].
    destruct (str_eqb (bs "noindent") n) eqn:E1; [apply str_eqb_eq in E1 as <-; right; left; apply switchb_iff; reflexivity|].
    destruct (str_eqb (bs "fid") n) eqn:E2; [apply str_eqb_eq in E2 as <-; left; reflexivity|].
    destruct (str_eqb (bs "acctid") n) eqn:E3; [apply str_eqb_eq in E3 as <-; left; reflexivity|].
    destruct (str_eqb (bs "appid") n) eqn:E4; [apply str_eqb_eq in E4 as <-; left; reflexivity|left; reflexivity].
  - intros n [<-|[<-|[<-|[]]]]; reflexivity.
  - intros d. unfold delay_of. split; (intros [[_ ->]|(v & (l1 & l2 & E & _) & _)]; [left; split; [cbn; intuition discriminate|reflexivity]|]);
      exfalso; assert (Hi : In (bs "delay", v) (l1 ++ (bs "delay", v) :: l2)) by apply in_elt; rewrite <- E in Hi; cbn in Hi; intuition discriminate.
Qed.

Example C84_refused_case :
  command_line (bs "download-cc") [bs "-fid"; bs "1"; bs "-dryrun=maybe"] Refused /\
  command_line (bs "detect-settings") [bs "-delay=1x"] Refused /\ command_line (bs "get-accounts") [bs "--acctid=1"] Refused /\
  command_line (bs "get-accounts") [bs "-help=1"] Helped.
Proof.
  assert (G : forall i args r, match nth_error commands i with
    | Some c => read_args (S (length args)) (cmd_flags c) args = r -> command_line (cmd_name c) args r | None => True end).
  { intros i args r. destruct (nth_error commands i) as [c|] eqn:E; [|exact I]. intros <-. apply read_sound; [|lia].
    apply nth_error_In in E. exact E. }
  split; [|split; [|split]].
  - exact (G 3 [bs "-fid"; bs "1"; bs "-dryrun=maybe"] Refused eq_refl).
  - exact (G 8 [bs "-delay=1x"] Refused eq_refl).
  - exact (G 1 [bs "--acctid=1"] Refused eq_refl).
  - exact (G 1 [bs "-help=1"] Helped eq_refl).
Qed.

(** C85: the tool waits only in detect-settings, between two attempts, and as long
    as it is told to, if that is less than about 292 years. *)
Theorem C85_waits_partial : forall m name args l e ns, io_runs (main m (name :: args)) l e -> In (ESleep ns) l ->
  name = bs "detect-settings" /\
  forall asg d, flag_args args asg -> delay_of asg d -> (Z.of_N d <= 9223372036854)%Z -> (ns = Z.of_N d * 1000000)%Z.
Proof.
  intros m name args l e ns H Hin. destruct (main_sleeps m name args l e ns H Hin) as [Hn Hw]. split; [exact Hn|].
  intros asg d Ha Hd Hle. apply waits_exact; [apply (Hw asg d Ha Hd)|]. change (2 ^ 63)%Z with 9223372036854775808%Z. lia.
Qed.
Print Assumptions C85_waits_partial.

(** In general it waits that long modulo 2^64 nanoseconds, as a number with sign. *)
Theorem C85_waits : forall m name args l e ns asg d, io_runs (main m (name :: args)) l e -> In (ESleep ns) l ->
  flag_args args asg -> delay_of asg d -> waits d ns.
Proof. intros m name args l e ns asg d H Hin Ha Hd. exact (proj2 (main_sleeps m name args l e ns H Hin) asg d Ha Hd). Qed.
Print Assumptions C85_waits.

(** One millisecond more is a wait of a negative duration: none at all. *)
Theorem C85_long_delays_refuted :
  exists m args asg d l e, flag_args args asg /\ delay_of asg d /\ (Z.of_N d = 9223372036855)%Z /\
    io_runs (main m (bs "detect-settings" :: args)) l e /\ exists ns, In (ESleep ns) l /\ (ns < 0)%Z.
Proof.
  pose (args := cli_args ++ [bs "-delay=9223372036855"]).
  pose (check := fun (l : list io_event) (e : ended unit) => existsb (fun x => match x with ESleep ns => (ns <? 0)%Z | _ => false end) l).
  destruct (io_case _ (main cli_machine (bs "detect-settings" :: args)) [RRand cli_random; RClock sample_date; RNet [RHttp None]; RClock sample_date; RNet [RHttp None];
    RRand cli_random; RClock sample_date; RNet [RHttp None]; RClock sample_date;
    RNet [cli_reply sample_response]] check) as (l & e & H & Hb); [vm_compute; reflexivity|].
  assert (Hr : command_line (bs "detect-settings") args (read_args (S (length args)) detect_flags args)).
  { assert (Hc : exists c, nth_error commands 8 = Some c /\ cmd_name c = bs "detect-settings" /\ cmd_flags c = detect_flags)
      by (eexists; split; [reflexivity|]; split; reflexivity).
    destruct Hc as (c & Hc & Hn & Hf). rewrite <- Hn, <- Hf. apply read_sound; [apply nth_error_In in Hc; exact Hc|lia]. }
  assert (E : exists asg, read_args (S (length args)) detect_flags args = Accepted asg /\ uint_after (bs "delay") 500 asg = 9223372036855%N)
    by (eexists; split; vm_compute; reflexivity).
  destruct E as (asg & E & Hd). rewrite E in Hr. destruct (line_accepted _ _ _ Hr asg eq_refl) as [Ha Hall].
  exists cli_machine, args, asg, 9223372036855%N, l, e. split; [exact Ha|].
  split; [apply (delay_exact _ _ Hall); congruence|]. split; [reflexivity|]. split; [exact H|].
  assert (G : forall x, match x with ESleep ns => (ns <? 0)%Z | _ => false end = true -> exists ns, x = ESleep ns /\ (ns < 0)%Z).
  { clear. intros x. destruct x as [| ns| | | | | |]; try discriminate. intros X. exists ns. split; [reflexivity|lia]. }
  apply existsb_exists in Hb as (x & Hx & Hb). apply G in Hb as (ns & -> & Hb). exists ns. split; [exact Hx|exact Hb].
Qed.
Print Assumptions C85_long_delays_refuted.

Example C85_case :
  exists l e, io_runs (main cli_machine (bs "detect-settings" :: cli_args ++ [bs "--delay"; bs "0x1_0"])) l e /\
    existsb (fun x => match x with ESleep ns => (ns =? 16000000)%Z | _ => false end) l = true.
Proof.
  apply (io_case _ _ [RRand cli_random; RClock sample_date; RNet [RHttp None]; RClock sample_date; RNet [RHttp None];
    RRand cli_random; RClock sample_date; RNet [RHttp None]; RClock sample_date;
    RNet [cli_reply sample_response]] (fun l e => existsb (fun x => match x with ESleep ns => (ns =? 16000000)%Z | _ => false end) l)).
  vm_compute. reflexivity.
Qed.
