(** C76: where the password goes. *)
From Coq Require Import QArith Lia Bool String.
From Coq Require Import List.
From Verif Require Import GoStr SpecStr GoStrFacts GoNum GoTime Types Enums EnumTables Records Common Messages Codec Schema Document SpecDocument Xml Wire
  Url Clients SpecClients ClientFacts Cli SpecCli CliFacts CliRuns Samples CliSamples SpecSecret SecretFacts SecretCli.
Close Scope Q_scope.
Close Scope string_scope.
Open Scope list_scope.

(** C76: a request is written with the password at one place; everything else,
    also whether it can be written, is the same for every password of 1 to 32
    bytes. *)
Theorem C76_document : forall q, (forall p, usable p -> request_marshal (with_password p q) = None) \/
  exists pre suf q', forall p, usable p -> request_marshal (with_password p q) = Some (pre ++ escape p ++ suf, with_password p q').
Proof. exact marshal_slot. Qed.
Print Assumptions C76_document.

(** A client does the same with another password, if it is answered the same: but
    for the password in the bodies and, for Discover, their length it sends the
    same to the same hosts, and returns the same. *)
Theorem C76_client : forall w c q p p' tr o q1, usable p -> usable p' -> carries_alike w -> checks_alike c ->
  runs (request_no_parse w c (with_password p q)) tr (o, q1) ->
  exists tr' q1', runs (request_no_parse w c (with_password p' q)) tr' (o, q1') /\ Forall2 (sent_alike p p') tr tr'.
Proof.
  intros w c q p p' tr o q1 Hp Hp' Hw Hc H.
  assert (Hq : request_alike p p' (with_password p q) (with_password p' q)) by (right; split; reflexivity).
  destruct (net_alike_runs _ _ _ _ _ _ (no_parse_alike p p' w c _ _ Hp Hp' Hw Hc Hq) _ _ H) as (tr' & [o' q1'] & H1 & H2 & [E _]).
  cbn [fst] in E. subst o'. eauto.
Qed.
Print Assumptions C76_client.

(** The tool prints, saves and does the same with another password, given as a
    flag or entered, and ends the same way, unless it is asked for a dry run. *)
Theorem C76_tool : forall m name args args' asg asg' p p' l e, usable p -> usable p' -> carries_alike (m_world m) ->
  flag_args args asg -> flag_args args' asg' -> Forall2 (flag_alike p p') asg asg' -> turned_on (bs "dryrun") asg = false ->
  io_runs (main m (name :: args)) l e ->
  exists l', io_runs (main m (name :: args')) l' e /\ Forall2 (done_alike p p') l l'.
Proof.
  intros m name args args' asg asg' p p' l e Hp Hp' Hw Ha Ha' Hal Hd H.
  destruct (io_alike_runs _ _ _ _ _ _ (main_alike p p' m name args args' asg asg' Hp Hp' Hw Ha Ha' Hal Hd) _ _ H) as (l' & e' & H1 & H2 & H3).
  exists l'. split; [|exact H2]. destruct e as [[]|c|], e' as [[]|c'|]; cbn in H3; try contradiction; [|subst c'|]; exact H1.
Qed.
Print Assumptions C76_tool.

(** In particular what is printed and saved does not depend on it. *)
Theorem C76_output : forall p p' l l', Forall2 (done_alike p p') l l' -> printed l = printed l' /\ saved l = saved l'.
Proof.
  intros p p' l l' H. induction H as [|x x' l l' Hx H [IH1 IH2]]; [split; reflexivity|].
  unfold printed, saved in *. cbn [flat_map]. rewrite IH1, IH2. destruct Hx; split; reflexivity.
Qed.
Print Assumptions C76_output.

Definition other_args : list str :=
  [bs "-url=https://example.com/ofx"; bs "--username"; bs "me"; bs "-password=a<b"; bs "-org=BNK"; bs "-fid"; bs "1987"].
Definition other_assignments : list (str * str) :=
  [(bs "url", bs "https://example.com/ofx"); (bs "username", bs "me"); (bs "password", bs "a<b"); (bs "org", bs "BNK"); (bs "fid", bs "1987")].

Example C76_case : usable (bs "secret") /\ usable (bs "a<b") /\ carries_alike (m_world cli_machine) /\
  flag_args cli_args cli_assignments /\ flag_args other_args other_assignments /\
  Forall2 (flag_alike (bs "secret") (bs "a<b")) cli_assignments other_assignments /\
  turned_on (bs "dryrun") cli_assignments = false /\
  (exists l e, io_runs (main cli_machine (bs "download-profile" :: cli_args)) l e /\
     match network l with
     | [EHttp r _] => match index_of (bs "secret") (hr_body r) with Some _ => true | None => false end
     | _ => false
     end = true) /\
  escape (bs "a<b") = bs "a&lt;b".
Proof.
  split; [unfold usable; cbn; lia|]. split; [unfold usable; cbn; lia|].
  split; [intros r r' t (_ & _ & E & _); cbn; rewrite E; reflexivity|].
  split; [exact cli_flag_args|]. split.
  { assert (Hn : forall n, forallb (fun c => negb (Ascii.eqb c "=")) n && negb (Ascii.eqb (hd "-"%char n) "-") = true -> flag_name n).
    { intros n H. apply andb_true_iff in H as [H1 H2]. destruct n as [|c n]; [discriminate|]. split; [discriminate|]. split.
      - cbn [hd] in *. intros ->. discriminate.
      - intros Hi. rewrite forallb_forall in H1. apply H1 in Hi. discriminate. }
    unfold other_args, other_assignments.
    apply (fa_equals (bs "-") (bs "url") (bs "https://example.com/ofx")); [left; reflexivity|apply Hn; reflexivity|].
    apply (fa_value (bs "--") (bs "username") (bs "me")); [right; reflexivity|apply Hn; reflexivity|unfold switch; cbn; intuition discriminate|].
    apply (fa_equals (bs "-") (bs "password") (bs "a<b")); [left; reflexivity|apply Hn; reflexivity|].
    apply (fa_equals (bs "-") (bs "org") (bs "BNK")); [left; reflexivity|apply Hn; reflexivity|].
    apply (fa_value (bs "-") (bs "fid") (bs "1987")); [left; reflexivity|apply Hn; reflexivity|unfold switch; cbn; intuition discriminate|].
    constructor. }
  split; [repeat constructor; try (left; reflexivity); right; split; reflexivity|]. split; [reflexivity|]. split; [|reflexivity].
  destruct (io_case _ (main cli_machine (bs "download-profile" :: cli_args)) [RRand cli_random; RClock sample_date; RNet [RHttp None]]
    (fun l e => match network l with
     | [EHttp r _] => match index_of (bs "secret") (hr_body r) with Some _ => true | None => false end
     | _ => false
     end)) as (l & e & H & Hb); [vm_compute; reflexivity|]. exists l, e. split; [exact H|exact Hb].
Qed.
