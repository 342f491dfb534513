(** C90: the files of an interrupted or failed command. *)
From Coq Require Import QArith.
From Verif Require Import GoStr SpecStr GoStrFacts Types Clients SpecClients Cli SpecCli Samples ClientFacts CliSamples CliFacts SpecCrash CrashFacts.
Close Scope Q_scope.

(** Wherever a command is stopped, the files are as they were, or a download got a
    last answer of status 200 and only its output file differs: it has the
    beginning of the body of that answer, or all of it. *)
Theorem C90_interrupted : forall m argv l d d', io_begins (main m argv) l -> disk_after d None l d' ->
  (forall g, d' g = d g) \/
  exists name args asg rp p rest, argv = name :: args /\ In name downloads /\ flag_args args asg /\
    last_answer (network l) = Some rp /\ rp_code rp = 200%Z /\ rp_body rp = p ++ rest /\
    forall g, d' g = put d (value_of (bs "filename") (bs "./response.ofx") asg) p g.
Proof. exact interrupted_files. Qed.
Print Assumptions C90_interrupted.

(** There are such files for all that a command can do. *)
Theorem C90_some_files : forall m argv l d, io_begins (main m argv) l -> exists d', disk_after d None l d'.
Proof. exact interrupted_disk. Qed.
Print Assumptions C90_some_files.

(** What is done at the end can be interrupted too. *)
Theorem C90_until_end : forall m argv l e, io_runs (main m argv) l e -> io_begins (main m argv) l.
Proof. intros m argv l e. exact (io_runs_begins _ _ l e). Qed.
Print Assumptions C90_until_end.

(** A download that contacts a server and ends with status 0 leaves all of the body. *)
Theorem C90_saved : forall m name args asg l e d d', In name downloads -> flag_args args asg -> io_runs (main m (name :: args)) l e ->
  disk_after d None l d' -> network l <> [] -> status e = 0%Z ->
  exists rp, last_answer (network l) = Some rp /\ rp_code rp = 200%Z /\
    forall g, d' g = put d (value_of (bs "filename") (bs "./response.ofx") asg) (rp_body rp) g.
Proof. exact ended_files. Qed.
Print Assumptions C90_saved.

(** But a download that fails may have lost what was in the file before: the file is
    emptied before the answer is written to it. *)
Theorem C90_loses : exists m argv l d d' f old, io_runs (main m argv) l (Exited 1) /\ disk_after d None l d' /\
  d f = Some old /\ old <> [] /\ d' f = Some [].
Proof.
  destruct (io_case _ (main cli_machine (bs "download-profile" :: cli_args))
    [RRand cli_random; RClock sample_date; RNet [RHttp (Some (mkHttpResponse 200 (bs "200 OK") 8 [] [] (bs "anything")))]; RFile true; RFile false]
    (fun l e => match filter file_event l, e with
                | [ECreate f true; ESave b false], Exited 1 => str_eqb f (bs "./response.ofx")
                | _, _ => false
                end)) as (l & e & H & E); [vm_compute; reflexivity|].
  set (d := fun g : str => if str_eqb g (bs "./response.ofx") then Some (bs "old") else None).
  exists cli_machine, (bs "download-profile" :: cli_args), l, d, (put (put d (bs "./response.ofx") []) (bs "./response.ofx") []), (bs "./response.ofx"), (bs "old").
  destruct (filter file_event l) as [|[] [|[] [|]]] eqn:Ef; try discriminate E; try (destruct ok; discriminate E).
  all: repeat match type of E with context [if ?b then _ else _] => destruct b; try discriminate E end.
  all: try (destruct e as [|[|p|p]|]; try discriminate E; destruct p; try discriminate E).
  apply str_eqb_eq in E. subst.
  split; [exact H|]. split; [|split; [reflexivity|split; [discriminate|apply put_same]]].
  apply files_disk. rewrite Ef. apply da_create. apply (da_part _ _ _ [] b); [reflexivity|]. constructor.
Qed.
Print Assumptions C90_loses.

(** A download that is stopped when half of the answer is written. *)
Example C90_case :
  exists l d', io_begins (main cli_machine (bs "download-profile" :: cli_args)) l /\ disk_after (fun _ => None) None l d' /\
    d' (bs "./response.ofx") = Some (bs "any").
Proof.
  destruct (io_case _ (main cli_machine (bs "download-profile" :: cli_args))
    [RRand cli_random; RClock sample_date; RNet [RHttp (Some (mkHttpResponse 200 (bs "200 OK") 8 [] [] (bs "anything")))]; RFile true; RFile false]
    (fun l e => match filter file_event l with
                | [ECreate f true; ESave b false] => str_eqb f (bs "./response.ofx") && str_eqb b (bs "anything")
                | _ => false
                end)) as (l & e & H & E); [vm_compute; reflexivity|].
  exists l, (put (put (fun _ => None) (bs "./response.ofx") []) (bs "./response.ofx") (bs "any")). split; [exact (io_runs_begins _ _ _ _ H)|].
  split; [|apply put_same]. apply files_disk. destruct (filter file_event l) as [|[] [|[] [|]]] eqn:Ef; try discriminate E.
  all: repeat match type of E with context [if ?b then _ else _] => destruct b; try discriminate E end.
  all: try (apply andb_prop in E as [E1 E2]; apply str_eqb_eq in E1, E2; subst).
  apply da_create. apply (da_part _ _ _ (bs "any") (bs "thing")); [reflexivity|]. constructor.
Qed.
