(** C84: the text of the list of commands. *)
From Coq Require Import QArith.
From Verif Require Import GoStr SpecStr Cli SpecCli SpecFlags SpecUsage UsageFacts.
Close Scope Q_scope.

(** Without a command, or with one that does not exist, exactly this text is
    printed. *)
Theorem C84_usage_text : forall m args l e, (forall name rest, args = name :: rest -> ~ In name (map fst command_texts)) ->
  io_runs (main m args) l e ->
  exists first, printed l = lines (first ++ introduction ++ commands_listed) /\
    (args = [] /\ first = [bs "Error: Please supply a sub-command. Usage:"; bs ""] \/
     (exists name rest, args = name :: rest /\ help_word name) /\ first = [] \/
     (exists name rest, args = name :: rest /\ ~ help_word name) /\ first = [bs "Error: Invalid sub-command. Usage:"]).
Proof. exact main_usage_text. Qed.
Print Assumptions C84_usage_text.

(** Such a command line. *)
Example C84_usage_text_case : forall name rest, [bs "download"] = name :: rest -> ~ In name (map fst command_texts).
Proof. intros name rest [= <- <-]. cbn. intuition discriminate. Qed.
