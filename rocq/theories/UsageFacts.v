(** The text of the list of commands. *)
From Coq Require Import QArith Lia Bool.
From Verif Require Import GoStr SpecStr GoStrFacts Cli SpecCli CliFacts CliRuns SpecFlags FlagFacts SpecUsage.
Close Scope Q_scope.

Lemma usage_text l e : io_runs usage l e -> printed l = lines (introduction ++ commands_listed) /\ e = Finished tt.
Proof.
  unfold usage. cbv zeta.
  assert (Et : map (fun c => bs "    " ++ pad_right (fold_left (fun n c => Nat.max n (length (cmd_name c))) commands 0) (cmd_name c) ++
      bs "    " ++ cmd_description c ++ [chr 10]) commands = map (fun s => s ++ [chr 10]) commands_listed) by (vm_compute; reflexivity).
  revert Et. generalize (fold_left (fun n c => Nat.max n (length (cmd_name c))) commands 0). intros k Et H.
  apply println_then in H as (l1 & -> & H).
  assert (G : forall cs l e, io_runs (each cs (fun c => print (bs "    " ++ pad_right k (cmd_name c) ++ bs "    " ++ cmd_description c ++ [chr 10]))) l e ->
    printed l = concat (map (fun c => bs "    " ++ pad_right k (cmd_name c) ++ bs "    " ++ cmd_description c ++ [chr 10]) cs) /\ e = Finished tt).
  { clear. induction cs as [|c cs IH]; cbn [each map concat]; intros l e H.
    - apply io_return_inv in H as [-> ->]. split; reflexivity.
    - apply print_then in H as (l1 & -> & H). apply IH in H as (Hp & ->). split; [|reflexivity].
      match goal with |- printed (EPrint ?a :: l1) = _ => change (printed (EPrint a :: l1)) with (a ++ printed l1) end.
      rewrite Hp. reflexivity. }
  apply G in H as (Hp & ->). split; [|reflexivity].
  match goal with |- printed (EPrint ?a :: l1) = _ => change (printed (EPrint a :: l1)) with (a ++ printed l1) end.
  rewrite Hp, Et. unfold lines. rewrite map_app, concat_app. f_equal.
Qed.

Lemma main_usage_text m args l e : (forall name rest, args = name :: rest -> ~ In name (map fst command_texts)) ->
  io_runs (main m args) l e ->
  exists first, printed l = lines (first ++ introduction ++ commands_listed) /\
    (args = [] /\ first = [bs "Error: Please supply a sub-command. Usage:"; bs ""] \/
     (exists name rest, args = name :: rest /\ help_word name) /\ first = [] \/
     (exists name rest, args = name :: rest /\ ~ help_word name) /\ first = [bs "Error: Invalid sub-command. Usage:"]).
Proof.
  intros Hno H. assert (Hafter : forall s l, io_runs (print s ~; usage ~; Exit 1) l e -> printed l = s ++ lines (introduction ++ commands_listed)).
  { intros s l0 H0. apply print_then in H0 as (l1 & -> & H0).
    change (printed (EPrint s :: l1)) with (s ++ printed l1). f_equal.
    apply io_runs_bind in H0 as [(u & l2 & l3 & H1 & H0 & ->)|[(c & -> & H0)|[-> H0]]].
    - apply usage_text in H1 as (Hp & _). apply io_exit_inv in H0 as [-> _]. rewrite app_nil_r. exact Hp.
    - apply usage_text in H0 as (_ & X). discriminate.
    - apply usage_text in H0 as (_ & X). discriminate. }
  unfold main in H. destruct args as [|name rest].
  - apply Hafter in H. exists [bs "Error: Please supply a sub-command. Usage:"; bs ""]. split; [rewrite H; unfold lines; rewrite (map_app _ [_; _]), concat_app; reflexivity|auto].
  - rewrite (find_command_none name) in H by (eapply Hno; reflexivity).
    destruct (existsb (str_eqb name) [bs "-h"; bs "-help"; bs "--help"; bs "help"]) eqn:E.
    + apply usage_text in H as (H & _). exists []. split; [exact H|]. right; left. split; [|reflexivity]. exists name, rest. split; [reflexivity|].
      apply existsb_exists in E as (x & Hx & E). apply str_eqb_eq in E as ->. exact Hx.
    + apply Hafter in H. exists [bs "Error: Invalid sub-command. Usage:"].
      split; [rewrite H; unfold lines; rewrite (map_app _ [_]), concat_app; reflexivity|]. right; right. split; [|reflexivity]. exists name, rest. split; [reflexivity|].
      intros X. apply not_true_iff_false in E. apply E. apply existsb_exists. exists name. split; [exact X|apply str_eqb_eq; reflexivity].
Qed.
