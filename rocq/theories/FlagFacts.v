(** Proofs for C84: how command lines are read. *)
From Coq Require Import Lia ZifyBool ZifyNat ZifyN.
From Verif Require Import GoStr SpecStr GoStrFacts GoNum GoUint Types Enums Records Messages Codec Document Cli SpecAmountText UintFacts
  SpecCli SpecFlags CliFacts CliRuns AmountTextFacts.

(** ** One argument *)

Inductive step := SDone | SBad | SFlag (n : str) (v : option str) (rest : list str).

Definition step_of (args : list str) : step :=
  match args with
  | [] => SDone
  | s :: rest =>
      match s with
      | c :: (d :: _) as t =>
          if negb (Ascii.eqb c "-") then SDone
          else
            let name := if Ascii.eqb d "-" then tl t else t in
            if Ascii.eqb d "-" && match name with [] => true | _ => false end then SDone
            else match name with
                 | [] => SBad
                 | x :: _ =>
                     if Ascii.eqb x "-" || Ascii.eqb x "=" then SBad
                     else let '(n, v) := split_flag name in SFlag n v rest
                 end
      | _ => SDone
      end
  end.

Lemma parse_one_step fl st args : parse_one fl st args =
  match step_of args with SDone => FDone st | SBad => FError | SFlag n v rest => use_flag fl n v st rest end.
Proof.
  unfold parse_one, step_of. destruct args as [|[|c [|d s]] rest]; try reflexivity.
  destruct (negb (Ascii.eqb c "-")); [reflexivity|]. cbv zeta.
  destruct (Ascii.eqb d "-"); cbn [tl andb].
  - destruct s as [|x s]; [reflexivity|]. destruct (_ || _); [reflexivity|]. destruct (split_flag _); reflexivity.
  - destruct (_ || _); [reflexivity|]. destruct (split_flag _); reflexivity.
Qed.

Definition other (s : str) : Prop := s = [] \/ hd (chr 0) s <> "-"%char \/ s = bs "-" \/ s = bs "--".

Lemma step_other s rest : other s -> step_of (s :: rest) = SDone.
Proof.
  intros [->|[H|[-> | ->]]]; try reflexivity. unfold step_of. destruct s as [|c [|d t]]; try reflexivity.
  cbn [hd] in H. destruct (Ascii.eqb_spec c "-"); [contradiction|reflexivity].
Qed.

Lemma step_flag d n w rest : dashes d -> flag_name n -> (w = [] \/ hd (chr 0) w = "="%char) ->
  step_of ((d ++ n ++ w) :: rest) = SFlag (fst (split_flag (n ++ w))) (snd (split_flag (n ++ w))) rest.
Proof.
  intros Hd Hn Hw. destruct n as [|c n]; [destruct Hn as [[] _]; reflexivity|]. pose proof Hn as (_ & Hh & Hi). cbn [hd] in Hh.
  assert (Hc : Ascii.eqb c "-" = false) by (destruct (Ascii.eqb_spec c "-"); [contradiction|reflexivity]).
  assert (Hc' : Ascii.eqb c "=" = false)
    by (destruct (Ascii.eqb_spec c "=") as [E|]; [exfalso; apply Hi; left; exact E|reflexivity]).
  destruct Hd as [-> | ->]; cbn [app bs list_ascii_of_string step_of Ascii.eqb Bool.eqb negb andb tl]; rewrite ?Hc; cbn [andb]; rewrite ?Hc, ?Hc'; cbn [orb];
    destruct (split_flag (c :: n ++ w)) as [x y]; reflexivity.
Qed.

Lemma step_equals d n v rest : dashes d -> flag_name n -> step_of ((d ++ n ++ bs "=" ++ v) :: rest) = SFlag n (Some v) rest.
Proof. intros Hd Hn. rewrite step_flag by (auto; right; reflexivity). rewrite split_flag_equals by exact Hn. reflexivity. Qed.

Lemma step_plain d n rest : dashes d -> flag_name n -> step_of ((d ++ n) :: rest) = SFlag n None rest.
Proof.
  intros Hd Hn. rewrite <- (app_nil_r n), step_flag by auto. rewrite app_nil_r, split_flag_plain by exact Hn. reflexivity.
Qed.

Lemma step_nameless s rest : nameless s -> step_of (s :: rest) = SBad.
Proof. intros [[t ->]|[[t ->]|[t ->]]]; reflexivity. Qed.

Lemma first_equals (r : str) : (~ In "="%char r) \/ exists a b, r = a ++ bs "=" ++ b /\ ~ In "="%char a.
Proof.
  induction r as [|c r IH]; [left; intros []|].
  destruct (Ascii.eqb_spec c "=") as [->|Hc]; [right; exists [], r; split; [reflexivity|intros []]|].
  destruct IH as [IH|(a & b & -> & Ha)].
  - left. intros [E|H]; [congruence|contradiction].
  - right. exists (c :: a), b. split; [reflexivity|]. intros [E|H]; [congruence|contradiction].
Qed.

Lemma step_cases args :
  (step_of args = SDone /\ (args = [] \/ exists s rest, args = s :: rest /\ other s)) \/
  (step_of args = SBad /\ exists s rest, args = s :: rest /\ nameless s) \/
  (exists d n v rest, dashes d /\ flag_name n /\ args = (d ++ n ++ bs "=" ++ v) :: rest) \/
  (exists d n rest, dashes d /\ flag_name n /\ args = (d ++ n) :: rest).
Proof.
  destruct args as [|s rest]; [left; auto|].
  assert (Hname : forall d x t, dashes d -> s = d ++ x :: t -> x <> "-"%char -> x <> "="%char ->
    (exists d n v rest0, dashes d /\ flag_name n /\ s :: rest = (d ++ n ++ bs "=" ++ v) :: rest0) \/
    (exists d n rest0, dashes d /\ flag_name n /\ s :: rest = (d ++ n) :: rest0)).
  { intros d x t Hd -> H1 H2. destruct (first_equals t) as [H|(a & b & -> & Ha)].
    - right. exists d, (x :: t), rest. split; [exact Hd|]. split; [|reflexivity]. split; [discriminate|]. split; [exact H1|].
      intros [E|E]; [congruence|contradiction].
    - left. exists d, (x :: a), b, rest. split; [exact Hd|]. split; [|reflexivity]. split; [discriminate|]. split; [exact H1|].
      intros [E|E]; [congruence|contradiction]. }
  assert (Ho : other s -> (step_of (s :: rest) = SDone /\ (s :: rest = [] \/ exists s0 rest0, s :: rest = s0 :: rest0 /\ other s0))).
  { intros H. split; [apply step_other; exact H|right; eauto]. }
  assert (Hb : nameless s -> (step_of (s :: rest) = SBad /\ exists s0 rest0, s :: rest = s0 :: rest0 /\ nameless s0)).
  { intros H. split; [apply step_nameless; exact H|eauto]. }
  destruct s as [|c s]; [left; apply Ho; left; reflexivity|].
  destruct (Ascii.eqb_spec c "-") as [->|Hc]; [|left; apply Ho; right; left; exact Hc].
  destruct s as [|x s]; [left; apply Ho; right; right; left; reflexivity|].
  destruct (Ascii.eqb_spec x "-") as [->|Hx].
  - destruct s as [|y s]; [left; apply Ho; right; right; right; reflexivity|].
    destruct (Ascii.eqb_spec y "-") as [->|Hy]; [right; left; apply Hb; right; right; exists s; reflexivity|].
    destruct (Ascii.eqb_spec y "=") as [->|Hy']; [right; left; apply Hb; right; left; exists s; reflexivity|].
    right; right. apply (Hname (bs "--") y s); auto. right. reflexivity.
  - destruct (Ascii.eqb_spec x "=") as [->|Hx']; [right; left; apply Hb; left; exists s; reflexivity|].
    right; right. apply (Hname (bs "-") x s); auto. left. reflexivity.
Qed.

(** ** The flags of the commands *)

Definition settable (fl : flags) (n v : str) : bool :=
  match find_flag n fl with Some f => match set_flag f v defaults with Some _ => true | None => false end | None => false end.
Definition known (fl : flags) (n : str) : bool := match find_flag n fl with Some _ => true | None => false end.

Lemma find_flag_none n fl : find_flag n fl = None <-> ~ In n (map fst fl).
Proof.
  induction fl as [|[m v] fl IH]; cbn [find_flag map fst In]; [tauto|].
  destruct (str_eqb m n) eqn:E.
  - apply str_eqb_eq in E as ->. split; [discriminate|]. intros H. exfalso. apply H. left. reflexivity.
  - rewrite IH. split; [intros H [->|X]; [rewrite (proj2 (str_eqb_eq n n) eq_refl) in E; discriminate|contradiction]|tauto].
Qed.

Lemma parse_bool_iff v : (exists b, parse_bool v = Some b) <-> yes v \/ no v.
Proof.
  assert (Hin : forall l, existsb (str_eqb v) l = true <-> In v l).
  { intros l. rewrite existsb_exists. split.
    - intros (x & Hx & E). apply str_eqb_eq in E as ->. exact Hx.
    - intros H. exists v. split; [exact H|apply str_eqb_eq; reflexivity]. }
  unfold parse_bool, yes, no. rewrite <- !Hin.
  destruct (existsb (str_eqb v) [bs "1"; _; _; _; _; _]); [split; eauto|].
  destruct (existsb (str_eqb v) [bs "0"; _; _; _; _; _]); [split; eauto|].
  split; [intros [b H]; discriminate|intros [H|H]; discriminate].
Qed.

(** The flags of a command by kind. *)
Definition texts_in (fl : flags) : list str := flat_map (fun p => match snd p with FString _ => [fst p] | _ => [] end) fl.
Definition bools_in (fl : flags) : list str := flat_map (fun p => match snd p with FBool _ => [fst p] | _ => [] end) fl.
Definition uints_in (fl : flags) : list str := flat_map (fun p => match snd p with FUint _ => [fst p] | _ => [] end) fl.

Fixpoint nodupb (l : list str) : bool :=
  match l with [] => true | x :: l => negb (existsb (str_eqb x) l) && nodupb l end.

Lemma flags_by_kind fl : nodupb (map fst fl) = true -> forall n,
  match find_flag n fl with
  | Some (FString _) => In n (texts_in fl) /\ ~ In n (bools_in fl) /\ ~ In n (uints_in fl)
  | Some (FBool _) => In n (bools_in fl) /\ ~ In n (texts_in fl) /\ ~ In n (uints_in fl)
  | Some (FUint _) => In n (uints_in fl) /\ ~ In n (texts_in fl) /\ ~ In n (bools_in fl)
  | None => ~ In n (texts_in fl) /\ ~ In n (bools_in fl) /\ ~ In n (uints_in fl)
  end.
Proof.
  assert (Sub : forall fl n, In n (texts_in fl) \/ In n (bools_in fl) \/ In n (uints_in fl) -> In n (map fst fl)).
  { intros fl' n. unfold texts_in, bools_in, uints_in. rewrite !in_flat_map. intros H.
    assert (exists p, In p fl' /\ n = fst p) as (p & Hp & ->).
    { destruct H as [(p & Hp & H)|[(p & Hp & H)|(p & Hp & H)]]; exists p; (split; [exact Hp|]);
        destruct (snd p); cbn [In] in H; intuition. }
    apply in_map. exact Hp. }
  induction fl as [|[m f] fl IH]; cbn [map fst nodupb]; intros Hd n; [cbn; tauto|].
  apply andb_true_iff in Hd as [Hm Hd]. specialize (IH Hd). cbn [find_flag].
  assert (Hni : ~ In m (map fst fl)).
  { intros X. apply negb_true_iff in Hm. rewrite <- not_true_iff_false in Hm. apply Hm. apply existsb_exists. exists m.
    split; [exact X|apply str_eqb_eq; reflexivity]. }
  pose proof (Sub fl m) as Sm.
  destruct (str_eqb m n) eqn:E.
  - apply str_eqb_eq in E as ->. destruct f; unfold texts_in, bools_in, uints_in in *; cbn [flat_map snd fst app In]; tauto.
  - assert (Hne : m <> n) by (intros ->; rewrite (proj2 (str_eqb_eq n n) eq_refl) in E; discriminate).
    specialize (IH n). destruct (find_flag n fl) as [[|? |?]|]; destruct f; unfold texts_in, bools_in, uints_in in *;
      cbn [flat_map snd fst app In]; tauto.
Qed.

Lemma command_kinds c : In c commands -> nodupb (map fst (cmd_flags c)) = true /\
  In (cmd_name c, texts_in (cmd_flags c)) (map (fun c => (cmd_name c, texts_in (cmd_flags c))) commands) /\
  ((cmd_name c <> bs "detect-settings" /\ bools_in (cmd_flags c) = [bs "noindent"; bs "carriagereturn"; bs "dryrun"] /\ uints_in (cmd_flags c) = []) \/
   (cmd_name c = bs "detect-settings" /\ bools_in (cmd_flags c) = [] /\ uints_in (cmd_flags c) = [bs "delay"])).
Proof.
  intros H. split; [|split; [apply (in_map (fun c => (cmd_name c, texts_in (cmd_flags c)))); exact H|]];
    cbn [In commands] in H; repeat destruct H as [<-|H]; try contradiction; try reflexivity;
    first [right; repeat split; reflexivity | left; split; [discriminate|split; reflexivity]].
Qed.

Lemma texts_unique name t t' : In (name, t) command_texts -> In (name, t') command_texts -> t = t'.
Proof.
  unfold command_texts. cbn [In]. intros H H'.
  repeat destruct H as [H|H]; try contradiction; injection H as <- <-;
    repeat destruct H' as [H'|H']; try contradiction; try discriminate H'; injection H' as <-; reflexivity.
Qed.

Lemma texts_same : forall n, forall p, In p (map (fun c => (cmd_name c, texts_in (cmd_flags c))) commands) ->
  exists t, In (fst p, t) command_texts /\ (In n t <-> In n (snd p)).
Proof.
  intros n p H. cbn [map commands In cmd_name cmd_flags] in H.
  repeat destruct H as [<-|H]; try contradiction; cbn [fst snd]; eexists; (split; [unfold command_texts; cbn [In]; tauto|]);
    unfold server_texts, texts_in, server_flags, detect_flags, f_filename, f_bankid, f_acctid, f_accttype, f_brokerid;
    cbn [app flat_map snd fst In]; tauto.
Qed.

Lemma takes_iff c n v : In c commands -> (takes (cmd_name c) n v <-> settable (cmd_flags c) n v = true).
Proof.
  intros Hc. destruct (command_kinds c Hc) as (Hd & Ht & Hk). pose proof (flags_by_kind _ Hd n) as K.
  destruct (texts_same n _ Ht) as (t & Hin & Ht'). cbn [fst snd] in *. unfold settable.
  assert (Htake : takes (cmd_name c) n v <-> In n (texts_in (cmd_flags c)) \/ (In n (bools_in (cmd_flags c)) /\ (yes v \/ no v)) \/
    (In n (uints_in (cmd_flags c)) /\ exists k, parse_uint64 v = Some k)).
  { split.
    - intros H. inversion H as [n' v' texts H1 H2|n' v' H1 H2 H3|v' k H1 H2 H3]; subst.
      + left. apply Ht'. rewrite (texts_unique _ _ _ Hin H1). exact H2.
      + destruct Hk as [(_ & -> & _)|(E & _)]; [|contradiction]. right; left. split; [exact H2|exact H3].
      + destruct Hk as [(E & _)|(_ & _ & ->)]; [contradiction|]. right; right. split; [left; reflexivity|].
        assert (H0 : (0 <= k)%Z).
        { assert (Hn := H2). apply whole_backward in Hn as (b & fc & Hn).
          destruct H2 as [|s ds w Hg _ Hv|s ds w Hg Hv|b0 p s ds w Hp Hg Hv]; [lia| | |];
            (apply based_iff in Hv as [_ <-]; [|try lia; apply prefix_base in Hp; lia]);
            apply bval_mono; try lia; apply prefix_base in Hp; lia. }
        exists (Z.to_N k). apply whole_uint. rewrite Z2N.id by exact H0. auto.
    - intros [H|[[H1 H2]|[H1 [k H2]]]].
      + eapply takes_text; [exact Hin|]. apply Ht'. exact H.
      + destruct Hk as [(E & X & _)|(_ & X & _)]; rewrite X in H1; [|contradiction]. apply takes_switch; auto.
      + destruct Hk as [(_ & _ & X)|(E & _ & X)]; rewrite X in H1; [contradiction|]. destruct H1 as [<-|[]].
        apply whole_uint in H2 as [H2 H3]. eapply takes_delay; eauto. }
  rewrite Htake. destruct (find_flag n (cmd_flags c)) as [[f|f|f]|]; cbn [set_flag].
  - split; [reflexivity|]. intros _. left. apply K.
  - rewrite <- parse_bool_iff. destruct (parse_bool v) as [b|]; split; try reflexivity; try discriminate.
    + intros _. right; left. split; [apply K|eauto].
    + intros [H|[[_ [b H]]|[H _]]]; [tauto|discriminate|tauto].
  - destruct (parse_uint64 v) as [k|]; split; try reflexivity; try discriminate.
    + intros _. right; right. split; [apply K|eauto].
    + intros [H|[[H _]|[_ [k H]]]]; [tauto|tauto|discriminate].
  - split; [tauto|discriminate].
Qed.

Lemma knows_iff c n : In c commands -> (knows (cmd_name c) n <-> known (cmd_flags c) n = true).
Proof.
  intros Hc. unfold knows. split.
  - intros [v H]. apply takes_iff in H; [|exact Hc]. unfold settable in H. unfold known. destruct (find_flag n (cmd_flags c)); [reflexivity|discriminate].
  - intros H. unfold known in H. destruct (find_flag n (cmd_flags c)) as [[f|f|f]|] eqn:E; [| | |discriminate].
    + exists []. apply takes_iff; [exact Hc|]. unfold settable. rewrite E. reflexivity.
    + exists (bs "true"). apply takes_iff; [exact Hc|]. unfold settable. rewrite E. reflexivity.
    + exists (bs "5"). apply takes_iff; [exact Hc|]. unfold settable. rewrite E. reflexivity.
Qed.

(** ** Reading as a function *)

Fixpoint read_args (fuel : nat) (fl : flags) (args : list str) : reading :=
  match fuel with
  | O => Refused
  | S fuel =>
      let set n v rest := if settable fl n v then given (n, v) (read_args fuel fl rest) else Refused in
      match step_of args with
      | SDone => Accepted []
      | SBad => Refused
      | SFlag n v rest =>
          if negb (known fl n) then if existsb (str_eqb n) [bs "h"; bs "help"] then Helped else Refused
          else match v with
               | Some v => set n v rest
               | None => if switchb n then set n (bs "true") rest
                         else match rest with [] => Refused | v :: rest => set n v rest end
               end
      end
  end.

Lemma help_in n : existsb (str_eqb n) [bs "h"; bs "help"] = true <-> In n [bs "h"; bs "help"].
Proof.
  rewrite existsb_exists. split.
  - intros (x & Hx & E). apply str_eqb_eq in E as ->. exact Hx.
  - intros H. exists n. split; [exact H|apply str_eqb_eq; reflexivity].
Qed.

Lemma settable_known fl n v : settable fl n v = true -> known fl n = true.
Proof. unfold settable, known. destruct (find_flag n fl); [reflexivity|discriminate]. Qed.

Lemma read_complete c args r : In c commands -> command_line (cmd_name c) args r -> forall fuel, length args < fuel ->
  read_args fuel (cmd_flags c) args = r.
Proof.
  intros Hc H. induction H as [|s rest Hs|args n v rest r Hf Ht H IH|args n v rest Hf Hk Ht|d n Hd Hn Hk Hs|args n Hf Hk Hh|args n Hf Hk Hh|s rest Hb];
    intros fuel Hl; (destruct fuel as [|fuel]; [lia|]); cbn [read_args].
  - reflexivity.
  - rewrite (step_other _ _ Hs). reflexivity.
  - apply (takes_iff c) in Ht; [|exact Hc]. pose proof (settable_known _ _ _ Ht) as Hk.
    destruct Hf as [d n v rest Hd Hn|d n rest Hd Hn Hs|d n v rest Hd Hn Hs]; cbn [length] in Hl.
    + rewrite step_equals by assumption. rewrite Hk, Ht. cbn [negb]. rewrite IH by lia. reflexivity.
    + rewrite step_plain by assumption. rewrite Hk, Ht, (proj2 (switchb_iff n) Hs). cbn [negb]. rewrite IH by lia. reflexivity.
    + rewrite step_plain by assumption. rewrite Hk, Ht. cbn [negb].
      destruct (switchb n) eqn:E; [apply switchb_iff in E; contradiction|]. rewrite IH by lia. reflexivity.
  - apply (knows_iff c) in Hk; [|exact Hc].
    assert (Hno : settable (cmd_flags c) n v = false).
    { destruct (settable (cmd_flags c) n v) eqn:E; [|reflexivity]. apply (takes_iff c) in E; [contradiction|exact Hc]. }
    destruct Hf as [d n v rest Hd Hn|d n rest Hd Hn Hs|d n v rest Hd Hn Hs].
    + rewrite step_equals by assumption. rewrite Hk, Hno. reflexivity.
    + rewrite step_plain by assumption. rewrite Hk, Hno, (proj2 (switchb_iff n) Hs). reflexivity.
    + rewrite step_plain by assumption. rewrite Hk, Hno. cbn [negb].
      destruct (switchb n) eqn:E; [apply switchb_iff in E; contradiction|reflexivity].
  - apply (knows_iff c) in Hk; [|exact Hc]. rewrite step_plain by assumption. rewrite Hk. cbn [negb].
    destruct (switchb n) eqn:E; [apply switchb_iff in E; contradiction|reflexivity].
  - assert (Hno : known (cmd_flags c) n = false).
    { destruct (known (cmd_flags c) n) eqn:E; [|reflexivity]. apply (knows_iff c) in E; [contradiction|exact Hc]. }
    apply help_in in Hh. destruct Hf as [d n v rest Hd Hn|d n rest Hd Hn]; rewrite ?step_equals, ?step_plain by assumption; rewrite Hno, Hh; reflexivity.
  - assert (Hno : known (cmd_flags c) n = false).
    { destruct (known (cmd_flags c) n) eqn:E; [|reflexivity]. apply (knows_iff c) in E; [contradiction|exact Hc]. }
    rewrite <- help_in in Hh. apply not_true_iff_false in Hh.
    destruct Hf as [d n v rest Hd Hn|d n rest Hd Hn]; rewrite ?step_equals, ?step_plain by assumption; rewrite Hno, Hh; reflexivity.
  - rewrite (step_nameless _ _ Hb). reflexivity.
Qed.

Lemma read_sound c : In c commands -> forall fuel args, length args < fuel ->
  command_line (cmd_name c) args (read_args fuel (cmd_flags c) args).
Proof.
  intros Hc. induction fuel as [|fuel IH]; intros args Hl; [lia|]. cbn [read_args].
  assert (Hset : forall n v rest, length rest < fuel -> flag_first args n v rest -> known (cmd_flags c) n = true ->
    command_line (cmd_name c) args (if settable (cmd_flags c) n v then given (n, v) (read_args fuel (cmd_flags c) rest) else Refused)).
  { intros n v rest Hr Hf Hk. destruct (settable (cmd_flags c) n v) eqn:E.
    - apply (takes_iff c) in E; [|exact Hc]. eapply cl_flag; [exact Hf|exact E|]. apply IH. exact Hr.
    - eapply cl_value; [exact Hf| |].
      + apply knows_iff; [exact Hc|exact Hk].
      + intros X. apply takes_iff in X; [|exact Hc]. congruence. }
  assert (Hun : forall n, named_first args n -> known (cmd_flags c) n = false ->
    command_line (cmd_name c) args (if existsb (str_eqb n) [bs "h"; bs "help"] then Helped else Refused)).
  { intros n Hf Hk. assert (Hno : ~ knows (cmd_name c) n) by (intros X; apply knows_iff in X; [congruence|exact Hc]).
    destruct (existsb (str_eqb n) [bs "h"; bs "help"]) eqn:E.
    - eapply cl_help; [exact Hf|exact Hno|apply help_in; exact E].
    - eapply cl_unknown; [exact Hf|exact Hno|]. rewrite <- help_in. congruence. }
  destruct (step_cases args) as [(-> & [->|(s & rest & -> & Hs)])|[(-> & s & rest & -> & Hs)|[(d & n & v & rest & Hd & Hn & ->)|(d & n & rest & Hd & Hn & ->)]]].
  - constructor.
  - apply cl_other. exact Hs.
  - apply cl_nameless. exact Hs.
  - rewrite step_equals by assumption. cbn [length] in Hl. destruct (known (cmd_flags c) n) eqn:E; cbn [negb].
    + apply Hset; [lia|constructor; assumption|exact E].
    + apply Hun; [constructor; assumption|exact E].
  - rewrite step_plain by assumption. cbn [length] in Hl. destruct (known (cmd_flags c) n) eqn:E; cbn [negb].
    + destruct (switchb n) eqn:Es.
      * apply switchb_iff in Es. apply Hset; [lia|constructor; assumption|exact E].
      * assert (Hs : ~ switch n) by (rewrite <- switchb_iff; congruence). destruct rest as [|v rest].
        -- apply cl_missing; try assumption. apply knows_iff; assumption.
        -- cbn [length] in Hl. apply Hset; [lia|constructor; assumption|exact E].
    + apply Hun; [constructor; assumption|exact E].
Qed.

Lemma command_line_unique c args r r' : In c commands -> command_line (cmd_name c) args r -> command_line (cmd_name c) args r' -> r' = r.
Proof.
  intros Hc H H'. apply (read_complete c) with (fuel := S (length args)) in H; [|exact Hc|lia].
  apply (read_complete c) with (fuel := S (length args)) in H'; [|exact Hc|lia]. congruence.
Qed.

(** ** The program *)

Lemma set_flag_ok f v st : match set_flag f v defaults with Some _ => exists st', set_flag f v st = Some st' | None => set_flag f v st = None end.
Proof. destruct f; cbn [set_flag]; [eauto|destruct (parse_bool v); eauto|destruct (parse_uint64 v); eauto]. Qed.

Lemma parse_reads c : In c commands -> forall fuel args st, length args < fuel ->
  parse_flags_fuel fuel (cmd_flags c) st args =
  match read_args fuel (cmd_flags c) args with
  | Accepted l => Return (settings_after l st)
  | Helped => Exit 0
  | Refused => Exit 2
  end.
Proof.
  intros Hc. pose proof (command_tables_in c Hc) as Hin. pose proof (command_tables c Hc) as Hok.
  induction fuel as [|fuel IH]; intros args st Hl; [lia|]. cbn [parse_flags_fuel read_args].
  rewrite parse_one_step. 
  destruct (step_cases args) as [(-> & _)|[(-> & _)|[(d & n & v & rest & Hd & Hn & ->)|(d & n & rest & Hd & Hn & ->)]]].
  - rewrite settings_nil. reflexivity.
  - reflexivity.
  - rewrite step_equals by assumption. cbn [length] in Hl. unfold use_flag, known, settable.
    destruct (find_flag n (cmd_flags c)) as [f|] eqn:E; cbn [negb].
    + apply find_flag_in in E. apply Hin in E.
      assert (Hf : match f with
        | FBool _ => match set_flag f v st with Some st' => FMore st' rest | None => FError end
        | _ => match set_flag f v st with Some st' => FMore st' rest | None => FError end end =
        match set_flag f v st with Some st' => FMore st' rest | None => FError end) by (destruct f; reflexivity).
      cbv zeta. rewrite Hf. pose proof (set_flag_ok f v st) as Ho. destruct (set_flag f v defaults).
      * destruct Ho as [st' Ho]. rewrite Ho, IH by lia. destruct (read_args fuel (cmd_flags c) rest); cbn [given]; try reflexivity.
        rewrite (settings_step _ _ _ _ _ _ E Ho). reflexivity.
      * rewrite Ho. reflexivity.
    + cbn [existsb]. rewrite orb_false_r, orb_comm. destruct (_ || _); reflexivity.
  - rewrite step_plain by assumption. cbn [length] in Hl. unfold use_flag, known, settable.
    destruct (find_flag n (cmd_flags c)) as [f|] eqn:E; cbn [negb].
    + apply find_flag_in in E. assert (Hs : match f with FBool _ => switchb n = true | _ => switchb n = false end).
      { unfold table_ok in Hok. rewrite Forall_forall in Hok. specialize (Hok _ E). cbn [fst snd] in Hok.
        destruct f; destruct Hok as [Hs _]; [|apply switchb_iff; exact Hs|];
          (destruct (switchb n) eqn:Es; [apply switchb_iff in Es; contradiction|reflexivity]). }
      apply Hin in E. cbv zeta.
      assert (Hgo : forall v rest, length rest < fuel ->
        match (match set_flag f v st with Some st' => FMore st' rest | None => FError end) with
        | FDone st0 => Return st0
        | FMore st0 args0 => parse_flags_fuel fuel (cmd_flags c) st0 args0
        | FHelp => Exit 0 | FError => Exit 2 end =
        match (if match set_flag f v defaults with Some _ => true | None => false end
               then given (n, v) (read_args fuel (cmd_flags c) rest) else Refused) with
        | Accepted l => Return (settings_after l st) | Helped => Exit 0 | Refused => Exit 2 end).
      { intros v rest' Hr. pose proof (set_flag_ok f v st) as Ho. destruct (set_flag f v defaults).
        - destruct Ho as [st' Ho]. rewrite Ho, IH by lia. destruct (read_args fuel (cmd_flags c) rest'); cbn [given]; try reflexivity.
          rewrite (settings_step _ _ _ _ _ _ E Ho). reflexivity.
        - rewrite Ho. reflexivity. }
      destruct f as [f|f|f]; rewrite Hs.
      * destruct rest as [|v rest]; [reflexivity|]. apply Hgo. cbn [length] in Hl. lia.
      * apply Hgo. lia.
      * destruct rest as [|v rest]; [reflexivity|]. apply Hgo. cbn [length] in Hl. lia.
    + cbn [existsb]. rewrite orb_false_r, orb_comm. destruct (_ || _); reflexivity.
Qed.

Lemma flags_of_line c args r : In c commands -> command_line (cmd_name c) args r ->
  parse_flags (cmd_flags c) args =
  match r with Accepted l => Return (settings_after l defaults) | Helped => Exit 0 | Refused => Exit 2 end.
Proof.
  intros Hc H. unfold parse_flags. rewrite (parse_reads c Hc) by lia. rewrite (read_complete c args r Hc H) by lia. reflexivity.
Qed.

(** ** What is accepted *)

Lemma line_accepted name args r : command_line name args r -> forall l, r = Accepted l ->
  flag_args args l /\ Forall (fun p => takes name (fst p) (snd p)) l.
Proof.
  induction 1 as [|s rest Hs|args n v rest r Hf Ht H IH|args n v rest Hf Hk Ht|d n Hd Hn Hk Hs|args n Hf Hk Hh|args n Hf Hk Hh|s rest Hb];
    intros l E; try discriminate.
  - injection E as <-. split; constructor.
  - injection E as <-. split; [constructor; exact Hs|constructor].
  - destruct r as [l'| |]; try discriminate. injection E as <-. destruct (IH l' eq_refl) as [Ha Hall].
    split; [|constructor; assumption]. destruct Hf; constructor; assumption.
Qed.

Lemma uint_after_none n d l : ~ In n (map fst l) -> uint_after n d l = d.
Proof.
  revert d. unfold uint_after. induction l as [|[m v] l IH]; cbn [fold_left map fst snd In]; intros d H; [reflexivity|].
  destruct (str_eqb m n) eqn:E; [apply str_eqb_eq in E; tauto|]. apply IH. tauto.
Qed.

Lemma uint_after_last n d l v k : last_given n v l -> parse_uint64 v = Some k -> uint_after n d l = k.
Proof.
  intros (l1 & l2 & -> & Hn) Hv. unfold uint_after. rewrite fold_left_app. cbn [fold_left fst snd].
  rewrite (proj2 (str_eqb_eq n n) eq_refl), Hv. apply (uint_after_none n k l2 Hn).
Qed.

Lemma last_or_none n l : (~ In n (map fst l)) \/ exists v, last_given n v l.
Proof.
  induction l as [|[m v] l IH]; [left; intros []|]. destruct IH as [IH|(w & l1 & l2 & -> & H)].
  - destruct (str_eqb m n) eqn:E.
    + apply str_eqb_eq in E as ->. right. exists v, [], l. auto.
    + left. cbn [map fst In]. intros [->|X]; [rewrite (proj2 (str_eqb_eq n n) eq_refl) in E; discriminate|contradiction].
  - right. exists w, ((m, v) :: l1), l2. auto.
Qed.

Lemma last_in n v l : last_given n v l -> In (n, v) l.
Proof. intros (l1 & l2 & -> & _). apply in_elt. Qed.

Lemma last_unique n v w l : last_given n v l -> last_given n w l -> v = w.
Proof.
  assert (H : forall d v, last_given n v l -> value_of n d l = v).
  { intros d u (l1 & l2 & -> & Hn). unfold value_of. rewrite fold_left_app. cbn [fold_left fst snd].
    rewrite (proj2 (str_eqb_eq n n) eq_refl). clear l1. induction l2 as [|[m x] l2 IH]; [reflexivity|]. cbn [fold_left fst snd map In] in *.
    destruct (str_eqb m n) eqn:E; [apply str_eqb_eq in E; tauto|]. apply IH. tauto. }
  intros Hv Hw. rewrite <- (H [] v Hv). apply H. exact Hw.
Qed.

Lemma delay_taken name v : takes name (bs "delay") v -> exists k, parse_uint64 v = Some k.
Proof.
  intros H. assert (Hc : exists c, In c commands /\ cmd_name c = name).
  { assert (Hn : In name (map cmd_name commands)).
    { inversion H as [n' v' texts H1 H2|n' v' H1 H2 H3|v' k H1 H2 H3]; subst.
      - apply (in_map fst) in H1. exact H1.
      - destruct H2 as [X|[X|[X|[]]]]; discriminate.
      - cbn; tauto. }
    apply in_map_iff in Hn as (c & <- & Hc). eauto. }
  destruct Hc as (c & Hc & <-). apply takes_iff in H; [|exact Hc]. unfold settable in H.
  destruct (find_flag (bs "delay") (cmd_flags c)) as [f|] eqn:E; [|discriminate].
  apply find_flag_in in E. apply (command_tables_in c Hc) in E. unfold all_flags, server_flags in E.
  cbn [In app f_filename f_bankid f_acctid f_accttype f_brokerid] in E.
  repeat destruct E as [E|E]; try discriminate E; try contradiction. injection E as <-. cbn [set_flag] in H.
  destruct (parse_uint64 v); [eauto|discriminate].
Qed.

Lemma delay_exact name l : Forall (fun p => takes name (fst p) (snd p)) l -> forall d, delay_of l d <-> d = uint_after (bs "delay") 500 l.
Proof.
  intros Hall d. unfold delay_of. destruct (last_or_none (bs "delay") l) as [Hno|(v & Hv)].
  - rewrite (uint_after_none _ _ _ Hno). split; [|auto]. intros [[_ H]|(v & Hv & _)]; [exact H|].
    exfalso. apply Hno. apply last_in in Hv. apply (in_map fst) in Hv. exact Hv.
  - pose proof (last_in _ _ _ Hv) as Hi. rewrite Forall_forall in Hall. specialize (Hall _ Hi). cbn [fst snd] in Hall.
    apply delay_taken in Hall as [k Hk]. rewrite (uint_after_last _ _ _ _ _ Hv Hk). pose proof (proj1 (whole_uint _ _) Hk) as [Hw Hr]. split.
    + intros [[H _]|(w & Hw' & Hd & Hr')]; [exfalso; apply H; apply (in_map fst) in Hi; exact Hi|].
      rewrite <- (last_unique _ _ _ _ Hv Hw') in Hd. assert (parse_uint64 v = Some d) by (apply whole_uint; auto). congruence.
    + intros ->. right. exists v. auto.
Qed.

Lemma command_named name : In name (map fst command_texts) ->
  exists c, find_command name commands = Some c /\ In c commands /\ cmd_name c = name.
Proof.
  assert (G : forall l, In name (map cmd_name l) -> exists c, find_command name l = Some c /\ In c l /\ cmd_name c = name).
  { induction l as [|c l IH]; cbn [map In find_command]; [intros []|]. intros H.
    destruct (str_eqb (cmd_name c) name) eqn:E; [apply str_eqb_eq in E; exists c; auto|].
    destruct H as [H|H]; [rewrite (proj2 (str_eqb_eq _ _) H) in E; discriminate|].
    destruct (IH H) as (c' & H1 & H2 & H3). exists c'. auto. }
  intros H. apply G. exact H.
Qed.

Lemma line_reads name args : In name (map fst command_texts) ->
  exists r, command_line name args r /\ forall r', command_line name args r' -> r' = r.
Proof.
  intros H. apply command_named in H as (c & _ & Hc & <-). eexists. split; [apply (read_sound c Hc (S (length args))); lia|].
  intros r' H'. apply (command_line_unique c args); [exact Hc| |exact H']. apply (read_sound c Hc); lia.
Qed.

Lemma line_main m name args r : In name (map fst command_texts) -> command_line name args r ->
  exists c, find_command name commands = Some c /\ main m (name :: args) =
  match r with
  | Accepted l => (x <~ cmd_check c m (settings_after l defaults);
                   if fst x then cmd_do c m (snd x)
                   else print [chr 10] ~; print (bs "Usage of " ++ cmd_name c ++ bs ":" ++ [chr 10]) ~; Exit 1) ~; Exit 0
  | Helped => Exit 0
  | Refused => Exit 2
  end.
Proof.
  intros H Hl. apply command_named in H as (c & Hf & Hc & <-). exists c. split; [exact Hf|].
  unfold main. rewrite Hf. unfold run_cmd. rewrite (flags_of_line c args r Hc Hl). destruct r; reflexivity.
Qed.

Lemma settings_same name name' l l' : Forall (fun p => takes name (fst p) (snd p)) l -> Forall (fun p => takes name' (fst p) (snd p)) l' ->
  same_values l l' -> settings_after l defaults = settings_after l' defaults.
Proof.
  intros Ha Ha' (Hv & Hs & Hd). 
  assert (Hval : forall n, ~ switch n -> n <> bs "delay" -> value_of n (flag_default n) l = value_of n (flag_default n) l').
  { intros n H1 H2. destruct (Hv n) as [H|[H|H]]; [exact H|contradiction|contradiction]. }
  assert (Hu : uint_after (bs "delay") 500 l = uint_after (bs "delay") 500 l').
  { apply (delay_exact _ _ Ha'). apply Hd. apply (delay_exact _ _ Ha). reflexivity. }
  unfold settings_after, defaults.
  cbn [st_serverURL st_username st_password st_org st_fid st_appID st_appVer st_ofxVersion st_clientUID st_noIndent st_carriageReturn st_dryrun
       st_userAgent st_filename st_bankID st_acctID st_acctType st_brokerID st_delay].
  assert (Hb : forall n, switch n -> bool_after n false l = bool_after n false l') by exact Hs.
  rewrite Hu, (Hb (bs "noindent")), (Hb (bs "carriagereturn")), (Hb (bs "dryrun")) by (cbn; tauto).
  assert (Hx : forall n d, switchb n = false -> str_eqb n (bs "delay") = false -> str_eqb (flag_default n) d = true -> value_of n d l = value_of n d l').
  { intros n d H1 H2 H3. apply str_eqb_eq in H3 as <-. apply Hval; [rewrite <- switchb_iff; congruence|]. intros ->. discriminate H2. }
  rewrite (Hx (bs "url") [] eq_refl eq_refl eq_refl), (Hx (bs "username") [] eq_refl eq_refl eq_refl), (Hx (bs "password") [] eq_refl eq_refl eq_refl), (Hx (bs "org") [] eq_refl eq_refl eq_refl), (Hx (bs "fid") [] eq_refl eq_refl eq_refl), (Hx (bs "clientuid") [] eq_refl eq_refl eq_refl), (Hx (bs "useragent") [] eq_refl eq_refl eq_refl), (Hx (bs "bankid") [] eq_refl eq_refl eq_refl), (Hx (bs "acctid") [] eq_refl eq_refl eq_refl), (Hx (bs "brokerid") [] eq_refl eq_refl eq_refl), (Hx (bs "appid") (bs "QWIN") eq_refl eq_refl eq_refl), (Hx (bs "appver") (bs "2400") eq_refl eq_refl eq_refl), (Hx (bs "ofxversion") (bs "203") eq_refl eq_refl eq_refl), (Hx (bs "filename") (bs "./response.ofx") eq_refl eq_refl eq_refl), (Hx (bs "accttype") (bs "CHECKING") eq_refl eq_refl eq_refl). reflexivity.
Qed.

Lemma line_same m name args args' l l' : In name (map fst command_texts) ->
  command_line name args (Accepted l) -> command_line name args' (Accepted l') -> same_values l l' ->
  main m (name :: args) = main m (name :: args').
Proof.
  intros Hn H H' Hs. destruct (line_main m name args _ Hn H) as (c & Hc & ->).
  destruct (line_main m name args' _ Hn H') as (c' & Hc' & ->). assert (c' = c) as -> by congruence.
  apply line_accepted with (l := l) in H as [_ H]; [|reflexivity]. apply line_accepted with (l := l') in H' as [_ H']; [|reflexivity].
  rewrite (settings_same _ _ _ _ H H' Hs). reflexivity.
Qed.

(** ** No such command *)

Lemma find_command_none name : ~ In name (map fst command_texts) -> find_command name commands = None.
Proof.
  intros H. assert (G : forall l, ~ In name (map cmd_name l) -> find_command name l = None).
  { induction l as [|c l IH]; cbn [map In find_command]; intros Hn; [reflexivity|].
    destruct (str_eqb (cmd_name c) name) eqn:E; [apply str_eqb_eq in E; tauto|]. apply IH. tauto. }
  apply G. exact H.
Qed.

Lemma usage_runs l e : io_runs usage l e -> Forall is_print l /\ e = Finished tt /\ in_order (map fst command_texts) (printed l).
Proof.
  unfold usage. cbv zeta. generalize (fold_left (fun n c => Nat.max n (length (cmd_name c))) commands 0). intros k H.
  apply println_then in H as (l1 & -> & H).
  assert (G : forall cs l e, io_runs (each cs (fun c => print (bs "    " ++ pad_right k (cmd_name c) ++ bs "    " ++ cmd_description c ++ [chr 10]))) l e ->
    Forall is_print l /\ e = Finished tt /\ in_order (map cmd_name cs) (printed l)).
  { clear. induction cs as [|c cs IH]; cbn [each]; intros l e H.
    - apply io_return_inv in H as [-> ->]. split; [constructor|]. split; [reflexivity|constructor].
    - apply print_then in H as (l1 & -> & H). apply IH in H as (Hp & -> & Ho). split; [constructor; [exact I|exact Hp]|]. split; [reflexivity|].
      match goal with |- in_order _ (printed (EPrint ?a :: l1)) => change (printed (EPrint a :: l1)) with (a ++ printed l1) end.
      unfold pad_right. rewrite <- !app_assoc. cbn [map]. apply in_order_skip, in_order_here. do 4 apply in_order_skip. exact Ho. }
  apply G in H as (Hp & -> & Ho). split; [constructor; [exact I|exact Hp]|]. split; [reflexivity|].
  match goal with |- in_order _ (printed (EPrint ?a :: l1)) => change (printed (EPrint a :: l1)) with (a ++ printed l1) end.
  apply in_order_skip. exact Ho.
Qed.

Lemma main_usage m args l e : (forall name rest, args = name :: rest -> ~ In name (map fst command_texts)) ->
  io_runs (main m args) l e ->
  Forall is_print l /\ in_order (map fst command_texts) (printed l) /\
  ((exists name rest, args = name :: rest /\ help_word name) /\ e = Finished tt \/
   (forall name rest, args = name :: rest -> ~ help_word name) /\ e = Exited 1).
Proof.
  intros Hno H. assert (Hw : forall name, help_word name <-> existsb (str_eqb name) [bs "-h"; bs "-help"; bs "--help"; bs "help"] = true).
  { intros name. unfold help_word. rewrite existsb_exists. split.
    - intros X. exists name. split; [exact X|apply str_eqb_eq; reflexivity].
    - intros (x & Hx & E). apply str_eqb_eq in E as ->. exact Hx. }
  assert (Hafter : forall s l, io_runs (print s ~; usage ~; Exit 1) l e -> Forall is_print l /\ in_order (map fst command_texts) (printed l) /\ e = Exited 1).
  { intros s l0 H0. apply print_then in H0 as (l1 & -> & H0).
    apply io_runs_bind in H0 as [(u & l2 & l3 & H1 & H0 & ->)|[(c & -> & H0)|[-> H0]]].
    - apply usage_runs in H1 as (Hp & _ & Ho). apply io_exit_inv in H0 as [-> ->]. rewrite app_nil_r.
      split; [constructor; [exact I|exact Hp]|]. split; [|reflexivity].
      change (printed (EPrint s :: l2)) with (s ++ printed l2). apply in_order_skip. exact Ho.
    - apply usage_runs in H0 as (_ & X & _). discriminate.
    - apply usage_runs in H0 as (_ & X & _). discriminate. }
  unfold main in H. destruct args as [|name rest].
  - apply Hafter in H as (H1 & H2 & ->). split; [exact H1|]. split; [exact H2|]. right. split; [intros; discriminate|reflexivity].
  - rewrite (find_command_none name) in H by (eapply Hno; reflexivity). specialize (Hw name).
    destruct (existsb (str_eqb name) [bs "-h"; bs "-help"; bs "--help"; bs "help"]).
    + apply usage_runs in H as (H1 & -> & H2). split; [exact H1|]. split; [exact H2|]. left. split; [|reflexivity]. exists name, rest.
      split; [reflexivity|apply Hw; reflexivity].
    + apply Hafter in H as (H1 & H2 & ->). split; [exact H1|]. split; [exact H2|]. right. split; [|reflexivity].
      intros n r [= <- <-] X. apply Hw in X. discriminate.
Qed.

(** ** The flags of a line are unique *)

Fixpoint pairs_of (fuel : nat) (args : list str) : list (str * str) :=
  match fuel with
  | O => []
  | S fuel =>
      match step_of args with
      | SFlag n (Some v) rest => (n, v) :: pairs_of fuel rest
      | SFlag n None rest =>
          if switchb n then (n, bs "true") :: pairs_of fuel rest
          else match rest with v :: rest => (n, v) :: pairs_of fuel rest | [] => [] end
      | _ => []
      end
  end.

Lemma flag_args_pairs args l : flag_args args l -> forall fuel, length args < fuel -> pairs_of fuel args = l.
Proof.
  intros Ha. induction Ha as [|s rest Hs|d n v rest l Hd Hn Ha IH|d n rest l Hd Hn Hs Ha IH|d n v rest l Hd Hn Hs Ha IH];
    intros fuel Hl; (destruct fuel as [|fuel]; [lia|]); cbn [pairs_of length] in *.
  - reflexivity.
  - rewrite (step_other _ _ Hs). reflexivity.
  - rewrite step_equals by assumption. rewrite IH by lia. reflexivity.
  - rewrite step_plain by assumption. rewrite (proj2 (switchb_iff n) Hs), IH by lia. reflexivity.
  - rewrite step_plain by assumption. destruct (switchb n) eqn:E; [apply switchb_iff in E; contradiction|]. rewrite IH by lia. reflexivity.
Qed.

Lemma flag_args_unique args l l' : flag_args args l -> flag_args args l' -> l = l'.
Proof.
  intros H H'. rewrite <- (flag_args_pairs _ _ H (S (length args))) by lia. apply flag_args_pairs; [exact H'|lia].
Qed.

Lemma parsed_line c args asg st : In c commands -> flag_args args asg -> parse_flags (cmd_flags c) args = Return st ->
  command_line (cmd_name c) args (Accepted asg).
Proof.
  intros Hc Ha Hp. pose proof (read_sound c Hc (S (length args)) args) as Hr. specialize (Hr ltac:(lia)).
  pose proof (flags_of_line c args _ Hc Hr) as E. rewrite Hp in E.
  destruct (read_args (S (length args)) (cmd_flags c) args) as [l| |]; try discriminate.
  destruct (line_accepted _ _ _ Hr l eq_refl) as [Ha' _]. rewrite (flag_args_unique _ _ _ Ha Ha'). exact Hr.
Qed.

Lemma parsed_delay c args asg st : In c commands -> flag_args args asg -> parse_flags (cmd_flags c) args = Return st ->
  forall d, delay_of asg d <-> d = uint_after (bs "delay") 500 asg.
Proof.
  intros Hc Ha Hp. apply (parsed_line _ _ _ _ Hc Ha) in Hp. destruct (line_accepted _ _ _ Hp asg eq_refl) as [_ H].
  exact (delay_exact _ _ H).
Qed.
