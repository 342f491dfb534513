(** C86: what a failing command says. *)
From Coq Require Import QArith Lia Bool ZifyBool ZifyNat ZifyN.
From Verif Require Import GoStr SpecStr GoStrFacts GoNum GoUint GoTime Types Enums EnumTables Records Messages Codec Document Wire Clients SpecClients ClientFacts
  Cli SpecCli SpecFlags SpecErrors Samples CliFacts CliRuns FlagFacts CliDetect CliSamples ErrorFacts.
Close Scope Q_scope.

(** C86: after the prompt for the password a command that ends with status 1 has
    printed exactly one message, which is true: the flags without a value and the
    usage, or the first thing that went wrong. Only transactions-inv says nothing
    if it gets no response. *)
Theorem C86_says_why : forall m name args asg l, In name (downloads ++ queries) -> command_line name args (Accepted asg) ->
  io_runs (main m (name :: args)) l (Exited 1) -> exists s, printed l = password_prompt asg ++ s /\ why m name asg l s.
Proof. exact main_says. Qed.
Print Assumptions C86_says_why.

Theorem C86_detect : forall m args asg l, command_line (bs "detect-settings") args (Accepted asg) ->
  io_runs (main m (bs "detect-settings" :: args)) l (Exited 1) ->
  exists s, printed l = password_prompt asg ++ s /\
  (flags_why m (bs "detect-settings") asg l s /\ network l = [] \/
   exists a r t, s = a ++ line (bs "Error creating uid for transaction: " ++ t) /\ told m t /\ In (ERand r) l /\ random_uid r = None).
Proof. exact main_detect_says. Qed.
Print Assumptions C86_detect.

(** There are no other ends: the status is 0 or 1, or 2 after a panic or a command
    line that is not accepted. *)
Theorem C86_status : forall m args l e, io_runs (main m args) l e ->
  (status e = 0%Z \/ status e = 1%Z) /\ e <> Crashed \/
  status e = 2%Z /\ (e = Crashed \/ exists name rest, args = name :: rest /\ In name (map fst command_texts) /\ command_line name rest Refused).
Proof.
  intros m args l e H.
  assert (C : (exists name rest, args = name :: rest /\ In name (map fst command_texts)) \/
              forall name rest, args = name :: rest -> ~ In name (map fst command_texts)).
  { destruct args as [|name rest]; [right; discriminate|].
    destruct (in_dec (list_eq_dec Ascii.ascii_dec) name (map fst command_texts)) as [Hi|Hi]; [left; eauto|].
    right. intros n r E. injection E as <- <-. exact Hi. }
  destruct C as [(name & rest & -> & Hn)|Hn].
  - destruct (line_reads name rest Hn) as ([asg| |] & Hl & _).
    + destruct (accepted_statuses m name rest asg l e Hn Hl H) as [->|[->| ->]].
      * left. split; [left; reflexivity|discriminate].
      * left. split; [right; reflexivity|discriminate].
      * right. split; [reflexivity|left; reflexivity].
    + destruct (line_main m name rest _ Hn Hl) as (c & _ & E). rewrite E in H. apply io_exit_inv in H as [_ ->]. left. split; [left; reflexivity|discriminate].
    + destruct (line_main m name rest _ Hn Hl) as (c & _ & E). rewrite E in H. apply io_exit_inv in H as [_ ->]. right. split; [reflexivity|]. right.
      exists name, rest. auto.
  - apply main_usage in H as (_ & _ & [[_ ->]|[_ ->]]); [| |exact Hn]; left; (split; [|discriminate]); [left|right]; reflexivity.
Qed.
Print Assumptions C86_status.

(** A dry run that gets to the request prints what Marshal makes of it, or why it
    makes nothing of it; the status is 0 in both cases. *)
Theorem C86_dry : forall m name args asg l, In name (downloads ++ queries) -> command_line name args (Accepted asg) ->
  turned_on (bs "dryrun") asg = true -> io_runs (main m (name :: args)) l (Exited 0) ->
  exists l1 c q t s, prepared m name asg l1 c q /\ l = l1 ++ [EClock t; EPrint (line s)] /\
    match request_marshal (set_client_fields t c q) with Some (b, _) => s = b | None => told m s end.
Proof.
  intros m name args asg l Hn Hl Hd H. destruct (line_accepted _ _ _ Hl asg eq_refl) as [Ha Ht].
  destruct (main_prepared _ _ _ _ _ _ Hn Ha H) as [(_ & code & E & Hc)|(l1 & c & q & l2 & e' & st & f & Hp & -> & Ee & Hdry & _ & Hf & Hr)].
  - exfalso. injection E as <-. destruct (Hc eq_refl) as (n & Hh & Hin). apply in_map_iff in Hin as ([n' v] & En & Hin). cbn [fst] in En. subst n'.
    rewrite Forall_forall in Ht. specialize (Ht _ Hin). cbn [fst snd] in Ht.
    destruct (line_of_command name Hn) as [Hk _]. apply command_named in Hk as (cmd & _ & Hcm & <-).
    apply (takes_iff _ _ _ Hcm) in Ht. apply settable_known in Ht. revert Ht Hh. clear - Hcm.
    cbn [In commands] in Hcm. intros Ht Hh. cbn [In] in Hh. destruct Hh as [<-|[<-|[]]];
      (repeat destruct Hcm as [<-|Hcm]; [..|contradiction]; discriminate Ht).
  - rewrite <- Hdry in Hd. apply (dry_final _ _ _ _ _ _ _ _ Hd Hf) in Hr. apply dry_says in Hr as (t & s & -> & Hs).
    exists l1, c, q, t, s. auto.
Qed.
Print Assumptions C86_dry.

(** Command lines for the cases below. *)
Definition reads_as (i : nat) (args : list str) (asg : list (str * str)) : bool :=
  match nth_error commands i with
  | Some c => match read_args (S (length args)) (cmd_flags c) args with
              | Accepted l => forallb (fun p => str_eqb (fst (fst p)) (fst (snd p)) && str_eqb (snd (fst p)) (snd (snd p))) (combine l asg) &&
                              Nat.eqb (length l) (length asg)
              | _ => false
              end
  | None => false
  end.

Lemma pairs_same : forall l asg : list (str * str),
  forallb (fun p => str_eqb (fst (fst p)) (fst (snd p)) && str_eqb (snd (fst p)) (snd (snd p))) (combine l asg) = true -> length l = length asg -> l = asg.
Proof.
  induction l as [|[a b] l IH]; intros [|[c d] asg] H1 H2; try discriminate H2; [reflexivity|].
  cbn [combine forallb fst snd] in H1. apply andb_true_iff in H1 as [H1 H3]. apply andb_true_iff in H1 as [H1 H4].
  apply str_eqb_eq in H1 as ->. apply str_eqb_eq in H4 as ->. f_equal. apply IH; [exact H3|injection H2 as H2; exact H2].
Qed.

Lemma read_case i args asg : reads_as i args asg = true ->
  match nth_error commands i with Some c => command_line (cmd_name c) args (Accepted asg) | None => True end.
Proof.
  unfold reads_as. destruct (nth_error commands i) as [c|] eqn:E; [|discriminate]. apply nth_error_In in E.
  pose proof (read_sound c E (S (length args)) args) as Hr. specialize (Hr ltac:(lia)).
  destruct (read_args (S (length args)) (cmd_flags c) args) as [l| |]; try discriminate.
  intros H. apply andb_true_iff in H as [H1 H2]. apply Nat.eqb_eq in H2. rewrite <- (pairs_same _ _ H1 H2). exact Hr.
Qed.

(** No server, no user and no file. *)
Example C86_flags_case :
  let args := [bs "-filename="; bs "-password=x"] in
  command_line (bs "download-cc") args (Accepted [(bs "filename", []); (bs "password", bs "x")]) /\
  exists l e, io_runs (main cli_machine (bs "download-cc" :: args)) l e /\
    match e with Exited 1 => true | _ => false end &&
    str_eqb (printed l) (line (bs "Error: Server URL empty") ++ line (bs "Error: Username empty") ++ line (bs "Error: Filename empty") ++
                         [chr 10] ++ line (bs "Usage of download-cc:")) = true.
Proof.
  cbv zeta. split; [exact (read_case 3 [bs "-filename="; bs "-password=x"] [(bs "filename", []); (bs "password", bs "x")] eq_refl)|].
  apply (io_case _ _ []). vm_compute. reflexivity.
Qed.

(** A server that does not answer. *)
Example C86_request_case :
  command_line (bs "download-bank") cli_args (Accepted cli_assignments) /\
  exists l e, io_runs (main cli_machine (bs "download-bank" :: cli_args)) l e /\
    match e with Exited 1 => true | _ => false end &&
    str_eqb (printed l) (line (bs "Error requesting account statement: some error")) = true.
Proof.
  split; [exact (read_case 2 cli_args cli_assignments eq_refl)|].
  apply (io_case _ _ [RRand cli_random; RClock sample_date; RNet [RHttp None]]). vm_compute. reflexivity.
Qed.

(** A login that is refused. *)
Definition refusing_response : Response :=
  mkResponse OfxVersion203 (mkSignonResponse (mkStatus 15500 (bs "ERROR") (bs "go away")) sample_date [] None (bs "ENG") None None [] [] [] [])
    (mkSlots [] [] [] [] [] [] [] [] [] [] [] [] [] []).
Example C86_status_case :
  exists l e, io_runs (main cli_machine (bs "get-accounts" :: cli_args)) l e /\
    match e with Exited 1 => true | _ => false end &&
    str_eqb (printed l) (line (bs "Nonzero signon status (15500: Signon invalid) with message: go away")) = true.
Proof.
  apply (io_case _ _ [RRand cli_random; RClock sample_date; RNet [cli_reply refusing_response]]). vm_compute. reflexivity.
Qed.

(** The exception. *)
Theorem C86_silent : exists m args asg l, command_line (bs "transactions-inv") args (Accepted asg) /\
  io_runs (main m (bs "transactions-inv" :: args)) l (Exited 1) /\ printed l = [].
Proof.
  destruct (io_case _ (main cli_machine (bs "transactions-inv" :: cli_args)) [RRand cli_random; RClock sample_date; RNet [RHttp None]]
    (fun l e => match e, printed l with Exited 1, [] => true | _, _ => false end)) as (l & e & H & Hb); [vm_compute; reflexivity|].
  exists cli_machine, cli_args, cli_assignments, l. split; [exact (read_case 7 cli_args cli_assignments eq_refl)|].
  destruct e as [|code|]; try discriminate Hb. destruct code as [|[| |]|]; try discriminate Hb. destruct (printed l); [|discriminate Hb]. auto.
Qed.
Print Assumptions C86_silent.

(** A dry run of a request that cannot be made. *)
Example C86_dry_case :
  let args := bs "-dryrun" :: bs "-username=a user with a name of more than 32 bytes" :: bs "-url=https://example.com/ofx" :: bs "-password=x" :: [] in
  exists l e, io_runs (main cli_machine (bs "get-accounts" :: args)) l e /\
    match e with Exited 0 => true | _ => false end && str_eqb (printed l) (line (bs "some error")) = true.
Proof.
  cbv zeta. apply (io_case _ _ [RRand cli_random; RClock sample_date]). vm_compute. reflexivity.
Qed.
