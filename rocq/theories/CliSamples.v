(** Running the command line tool with given answers, for examples. *)
From Coq Require Import QArith Lia Bool ZifyBool ZifyNat ZifyN.
From Verif Require Import GoStr SpecStr GoStrFacts GoNum GoUint GoTime Types Enums EnumTables Records Common Messages Codec Schema
  Document SpecDocument Wire Url Clients SpecClients ClientFacts Cli SpecCli Samples.
Close Scope Q_scope.

Inductive io_reply := RClock (t : gotime) | RRand (r : rand_result) | RPrompt (a : option str) | RFile (b : bool) | RNet (l : list reply).

Fixpoint drive_io {A} (p : io A) (l : list io_reply) : option (list io_event * ended A) :=
  match p with
  | Return a => Some ([], Finished a)
  | Exit c => Some ([], Exited c)
  | Panic => Some ([], Crashed)
  | Print s k => option_map (fun x => (EPrint s :: fst x, snd x)) (drive_io k l)
  | Sleep n k => option_map (fun x => (ESleep n :: fst x, snd x)) (drive_io k l)
  | Clock k => match l with
               | RClock t :: l' => option_map (fun x => (EClock t :: fst x, snd x)) (drive_io (k t) l')
               | _ => None
               end
  | Rand k => match l with
              | RRand t :: l' => option_map (fun x => (ERand t :: fst x, snd x)) (drive_io (k t) l')
              | _ => None
              end
  | Prompt k => match l with
                | RPrompt t :: l' => option_map (fun x => (EPrompt t :: fst x, snd x)) (drive_io (k t) l')
                | _ => None
                end
  | Create n k => match l with
                  | RFile t :: l' => option_map (fun x => (ECreate n t :: fst x, snd x)) (drive_io (k t) l')
                  | _ => None
                  end
  | Save b k => match l with
                | RFile t :: l' => option_map (fun x => (ESave b t :: fst x, snd x)) (drive_io (k t) l')
                | _ => None
                end
  | Send p k => match l with
                | RNet a :: l' => match drive p a with
                                  | Some (tr, y) => option_map (fun x => (map ENet tr ++ fst x, snd x)) (drive_io (k y) l')
                                  | None => None
                                  end
                | _ => None
                end
  | Ask p k => match l with
               | RNet a :: l' => match drive p a with
                                 | Some (tr, y) => option_map (fun x => (map ENet tr ++ fst x, snd x)) (drive_io (k y) l')
                                 | None => None
                                 end
               | _ => None
               end
  end.

Lemma option_map_some {A B} (f : A -> B) o b : option_map f o = Some b -> exists a, o = Some a /\ b = f a.
Proof. destruct o; [|discriminate]. intros H. injection H as <-. eauto. Qed.

Lemma drive_io_runs A (p : io A) : forall l l' e, drive_io p l = Some (l', e) -> io_runs p l' e.
Proof.
  induction p; intros l l' e' E; cbn [drive_io] in E;
    try (destruct l as [|[t|t|t|t|t] l]; try discriminate E);
    try (match type of E with match drive ?p ?a with _ => _ end = _ => destruct (drive p a) as [[tr y]|] eqn:D; [|discriminate E]; apply drive_runs in D end);
    try (apply option_map_some in E as ([l1 e1] & E & X); cbn [fst snd] in X; injection X as -> ->);
    try (injection E as <- <-); econstructor; eauto.
Qed.

Lemma io_case A (p : io A) l (P : list io_event -> ended A -> bool) :
  match drive_io p l with Some (l', e) => P l' e | None => false end = true -> exists l' e, io_runs p l' e /\ P l' e = true.
Proof. destruct (drive_io p l) as [[l' e]|] eqn:E; [|discriminate]. intros H. exists l', e. split; [eapply drive_io_runs, E|exact H]. Qed.

Definition accepted_of (e : env) (tr : list event) : option Response :=
  match last_answer tr with
  | Some rp => if (rp_code rp =? 200)%Z then
                 match decode_response e (rp_body rp) with
                 | Some r => match response_valid r with
                             | None => if (Status_Code (SignonResponse_Status (rs_signon r)) =? 0)%Z then Some r else None
                             | Some _ => None
                             end
                 | None => None
                 end
               else None
  | None => None
  end.

Lemma accepted_of_some e tr r : accepted_of e tr = Some r -> accepted e tr r.
Proof.
  unfold accepted_of, accepted, answered. destruct (last_answer tr) as [rp|] eqn:E1; [|discriminate]. destruct (rp_code rp =? 200)%Z eqn:E2; [|discriminate].
  destruct (decode_response e (rp_body rp)) as [r'|] eqn:E3; [|discriminate]. destruct (response_valid r') eqn:E4; [discriminate|].
  destruct (_ =? 0)%Z eqn:E5; [|discriminate]. intros H. injection H as ->. split; [|lia]. exists rp. repeat split; auto. lia.
Qed.

(** ** Samples *)

Definition cli_world : world := mkWorld sample_date (fun _ loc => Some loc) (fun r _ => (hr_headers r, [])).
Definition cli_machine : machine := mkMachine cli_world sample_env (fun _ => bs "some error").
Definition cli_random : rand_result := RandRead (map (fun n => chr (N.of_nat n)) (seq 0 16)) 16.
Definition cli_args : list str :=
  [bs "-url=https://example.com/ofx"; bs "--username"; bs "me"; bs "-password"; bs "secret"; bs "-org=BNK"; bs "-fid"; bs "1987"].
Definition cli_assignments : list (str * str) :=
  [(bs "url", bs "https://example.com/ofx"); (bs "username", bs "me"); (bs "password", bs "secret"); (bs "org", bs "BNK"); (bs "fid", bs "1987")].

Definition bank_args : list str := bs "-bankid=318398732" :: bs "-acctid=78346129" :: cli_args.
Definition cc_args : list str := bs "-acctid=4111" :: cli_args.
Definition inv_args : list str := bs "-brokerid=broker" :: bs "-acctid=1234" :: cli_args.

Lemma cli_flag_args : flag_args cli_args cli_assignments.
Proof.
  assert (Hn : forall n, forallb (fun c => negb (Ascii.eqb c "=")) n && negb (Ascii.eqb (hd "-"%char n) "-") = true -> flag_name n).
  { intros n H. apply andb_true_iff in H as [H1 H2]. destruct n as [|c n]; [discriminate|]. split; [discriminate|]. split.
    - cbn [hd] in *. intros ->. discriminate.
    - intros Hi. rewrite forallb_forall in H1. apply H1 in Hi. discriminate. }
  unfold cli_args, cli_assignments.
  apply (fa_equals (bs "-") (bs "url") (bs "https://example.com/ofx")); [left; reflexivity|apply Hn; reflexivity|].
  apply (fa_value (bs "--") (bs "username") (bs "me")); [right; reflexivity|apply Hn; reflexivity|unfold switch; cbn; intuition discriminate|].
  apply (fa_value (bs "-") (bs "password") (bs "secret")); [left; reflexivity|apply Hn; reflexivity|unfold switch; cbn; intuition discriminate|].
  apply (fa_equals (bs "-") (bs "org") (bs "BNK")); [left; reflexivity|apply Hn; reflexivity|].
  apply (fa_value (bs "-") (bs "fid") (bs "1987")); [left; reflexivity|apply Hn; reflexivity|unfold switch; cbn; intuition discriminate|].
  constructor.
Qed.

Definition marshalled (r : Response) : str := match response_marshal r with Some b => b | None => [] end.
Definition cli_reply (r : Response) : reply := RHttp (Some (mkHttpResponse 200 (bs "200 OK") (-1) [] [] (marshalled r))).
Definition cli_answer (r : Response) : list io_reply := [RRand cli_random; RClock sample_date; RNet [cli_reply r]].

Definition cli_response (sl : Slots) : Response := mkResponse OfxVersion203 sample_signon_response sl.

(** A transaction with neither a name nor a payee, and statements with and without a
    list of transactions. *)
Definition nameless : Transaction :=
  mkTransaction 2 sample_date None None (-(1001 # 100)) (bs "000001") [] 0 [] (bs "12") [] 0 [] [] None []
    None None [] [] None None 0.
Definition bank_response (l : option TransactionList) : Response :=
  cli_response (mkSlots [] [MsgStatementResponse (mkStatementResponse (bs "1001") sample_status [] (bs "USD") sample_acct l None
    (1001 # 50) sample_date None None None None [] [])] [] [] [] [] [] [] [] [] [] [] [] []).
Definition cc_response (l : option TransactionList) : Response :=
  cli_response (mkSlots [] [] [MsgCCStatementResponse (mkCCStatementResponse (bs "1001") sample_status [] (bs "USD") (mkCCAcct (bs "4111") []) l
    (1001 # 50) sample_date None None 0 0 0 0 [] 0 0 [] [])] [] [] [] [] [] [] [] [] [] [] []).
Definition inv_response (b : option InvBalance) (l : option InvTranList) : Response :=
  cli_response (mkSlots [] [] [] [] [MsgInvStatementResponse (mkInvStatementResponse (bs "1003") sample_status [] sample_date (bs "USD")
    (mkInvAcct (bs "broker") (bs "1234")) l [] b [] [] None None)] [] [] [] [] [] [] [] [] []).
Definition cash_balance (q : Q) : InvBalance := mkInvBalance q 0 0 0 [].
