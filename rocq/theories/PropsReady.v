(** C95: the tool sends its request exactly if its flags are right. *)
From Coq Require Import QArith Lia.
From Verif Require Import GoStr SpecStr GoStrFacts GoTime Types Enums EnumTables Records Common Messages Codec Document Wire Url Clients SpecClients SpecValid SpecUrl UrlFacts ClientFacts
  Cli SpecCli SpecFlags CliRuns CliSamples FlagFacts SpecReady ReadyFacts PropsErrors Samples.
Close Scope Q_scope.

(** Every command that asks a server for something does so exactly if its flags
    are right, a password that it has to ask for can be sent, and there are random
    numbers. In all other cases, and in dry runs, it sends nothing. *)
Theorem C95_sends : forall m name args asg l e, In name (downloads ++ queries) -> command_line name args (Accepted asg) ->
  turned_on (bs "dryrun") asg = false -> io_runs (main m (name :: args)) l e ->
  (network l <> [] <-> flags_right name asg /\ surroundings_work l).
Proof. exact main_ready. Qed.
Print Assumptions C95_sends.

(** Whether the flags are right does not depend on the account, unless it is a bank
    account: a credit card or an investment account that is not named is asked
    for. *)
Theorem C95_account : forall name asg x, In name [bs "download-cc"; bs "transactions-cc"; bs "download-inv"; bs "transactions-inv"] ->
  flags_right name asg -> flags_right name (asg ++ [(bs "acctid", x); (bs "brokerid", x)]).
Proof.
  intros name asg x Hn [F1 F2 F3 F4 F5 F6 F7].
  assert (V : forall n d, n <> bs "acctid" -> n <> bs "brokerid" -> value_of n d (asg ++ [(bs "acctid", x); (bs "brokerid", x)]) = value_of n d asg).
  { intros n d N1 N2. unfold value_of. rewrite fold_left_app. cbn [fold_left fst snd].
    destruct (str_eqb_spec (bs "acctid") n) as [X|_]; [congruence|]. destruct (str_eqb_spec (bs "brokerid") n) as [X|_]; [congruence|reflexivity]. }
  constructor; try (rewrite !V by discriminate; assumption).
  intros Hb. exfalso. cbn [In] in Hn, Hb. repeat destruct Hn as [<-|Hn]; try contradiction; destruct Hb as [X|[X|[]]]; discriminate X.
Qed.
Print Assumptions C95_account.

(** detect-settings contacts the server exactly if the URL names one, there is a
    user, a password that it asks for is typed, and the first random number is
    there. It needs no more, since it also tries to log in anonymously. *)
Theorem C95_detect : forall m args asg l e, command_line (bs "detect-settings") args (Accepted asg) ->
  io_runs (main m (bs "detect-settings" :: args)) l e ->
  (network l <> [] <-> (exists host path, names (value_of (bs "url") [] asg) host path) /\ value_of (bs "username") [] asg <> [] /\
     ~ In (EPrompt None) l /\ random_at_first l).
Proof. exact main_detects_ready. Qed.
Print Assumptions C95_detect.

(** A bank statement that is asked for. *)
Example C95_case :
  let asg := (bs "bankid", bs "318398732") :: (bs "acctid", bs "78346129") :: cli_assignments in
  command_line (bs "transactions-bank") bank_args (Accepted asg) /\ turned_on (bs "dryrun") asg = false /\
  (exists l e, io_runs (main cli_machine (bs "transactions-bank" :: bank_args)) l e /\ network l <> []) /\
  flags_right (bs "transactions-bank") asg.
Proof.
  cbv zeta. set (asg := (bs "bankid", bs "318398732") :: (bs "acctid", bs "78346129") :: cli_assignments).
  assert (Hl : command_line (bs "transactions-bank") bank_args (Accepted asg)) by exact (read_case 5 bank_args asg eq_refl).
  destruct (io_case _ (main cli_machine (bs "transactions-bank" :: bank_args)) [RRand cli_random; RClock sample_date; RNet [RHttp None]]
    (fun l e => match network l with [] => false | _ => true end)) as (l & e & H & Hb); [vm_compute; reflexivity|].
  assert (Hn : network l <> []) by (intros X; rewrite X in Hb; discriminate Hb).
  split; [exact Hl|]. split; [reflexivity|]. split; [eauto|].
  apply (C95_sends cli_machine (bs "transactions-bank") bank_args asg l e); [unfold downloads, queries; cbn [app In]; tauto|exact Hl|reflexivity|exact H|exact Hn].
Qed.

(** Without the number of the bank nothing is sent. *)
Example C95_wrong_case :
  command_line (bs "transactions-bank") cc_args (Accepted ((bs "acctid", bs "4111") :: cli_assignments)) /\
  ~ flags_right (bs "transactions-bank") ((bs "acctid", bs "4111") :: cli_assignments) /\
  exists l e, io_runs (main cli_machine (bs "transactions-bank" :: cc_args)) l e /\ network l = [].
Proof.
  split; [exact (read_case 5 cc_args ((bs "acctid", bs "4111") :: cli_assignments) eq_refl)|]. split.
  - intros [_ _ _ _ _ _ F]. destruct F as [F _]; [cbn [In]; tauto|]. apply F. reflexivity.
  - destruct (io_case _ (main cli_machine (bs "transactions-bank" :: cc_args)) [RRand cli_random; RClock sample_date; RNet []]
      (fun l e => match network l with [] => true | _ => false end)) as (l & e & H & Hb); [vm_compute; reflexivity|].
    exists l, e. split; [exact H|]. destruct (network l); [reflexivity|discriminate Hb].
Qed.

(** A credit card that is not named. *)
Example C95_account_case :
  command_line (bs "transactions-cc") cli_args (Accepted cli_assignments) /\
  (exists l e, io_runs (main cli_machine (bs "transactions-cc" :: cli_args)) l e /\ network l <> []) /\
  flags_right (bs "transactions-cc") cli_assignments.
Proof.
  assert (Hl : command_line (bs "transactions-cc") cli_args (Accepted cli_assignments)) by exact (read_case 6 cli_args cli_assignments eq_refl).
  destruct (io_case _ (main cli_machine (bs "transactions-cc" :: cli_args)) [RRand cli_random; RClock sample_date; RNet [RHttp None]]
    (fun l e => match network l with [] => false | _ => true end)) as (l & e & H & Hb); [vm_compute; reflexivity|].
  assert (Hn : network l <> []) by (intros X; rewrite X in Hb; discriminate Hb).
  split; [exact Hl|]. split; [eauto|].
  apply (C95_sends cli_machine (bs "transactions-cc") cli_args cli_assignments l e); [unfold downloads, queries; cbn [app In]; tauto|exact Hl|reflexivity|exact H|exact Hn].
Qed.

(** A password that is too long to be sent: the first attempt contacts the server
    all the same, anonymously. *)
Example C95_detect_case :
  let args := [bs "-url=https://example.com/ofx"; bs "-username=me"; bs "-password=012345678901234567890123456789012"] in
  let asg := [(bs "url", bs "https://example.com/ofx"); (bs "username", bs "me"); (bs "password", bs "012345678901234567890123456789012")] in
  command_line (bs "detect-settings") args (Accepted asg) /\
  exists l e, io_runs (main cli_machine (bs "detect-settings" :: args)) l e /\ length (network l) = 1 /\ random_at_first l.
Proof.
  cbv zeta. set (args := [bs "-url=https://example.com/ofx"; bs "-username=me"; bs "-password=012345678901234567890123456789012"]).
  set (asg := [(bs "url", bs "https://example.com/ofx"); (bs "username", bs "me"); (bs "password", bs "012345678901234567890123456789012")]).
  assert (Hl : command_line (bs "detect-settings") args (Accepted asg)) by exact (read_case 8 args asg eq_refl).
  destruct (io_case _ (main cli_machine (bs "detect-settings" :: args)) [RRand cli_random; RClock sample_date; RNet []; RClock sample_date; RNet [RHttp None];
    RRand RandErr] (fun l e => Nat.eqb (length (network l)) 1)) as (l & e & H & Hb); [vm_compute; reflexivity|].
  apply Nat.eqb_eq in Hb. split; [exact Hl|]. exists l, e. split; [exact H|]. split; [exact Hb|].
  apply (C95_detect cli_machine args asg l e Hl H). intros X. rewrite X in Hb. discriminate Hb.
Qed.
