(** C89: goroutines may share a client, but not a request. *)
From Coq Require Import QArith Lia Bool.
From Verif Require Import GoStr GoTime Types Enums EnumTables Records Common Messages Codec Schema
  Document Wire Url Clients SpecClients ClientFacts Samples Goroutines SpecGoroutines GoroutineFacts.
Close Scope Q_scope.

(** Any number of goroutines call RequestNoParse, each with a request of its own and
    with any clients, the same or not. Whatever the schedule, the time and the
    network: what each of them has done so far is the beginning of something it
    could have done alone, and if it has returned, its result and its request are
    as if it had been alone. Other requests do not change. *)
Theorem C89_alone : forall w l h log h2 l2, NoDup (map snd l) ->
  together h (map (fun x => request_routine w (fst x) (snd x)) l) log h2 l2 ->
  (forall i c a, nth_error l i = Some (c, a) -> exists now rest o q,
     runs (request_no_parse (at_time w now) c (h a)) (done_by i log ++ rest) (o, q) /\
     forall o2, nth_error l2 i = Some (Ended o2) -> rest = [] /\ o = o2 /\ q = h2 a) /\
  (forall b, ~ In b (map snd l) -> h2 b = h b).
Proof. exact goroutines_alone. Qed.
Print Assumptions C89_alone.

(** In particular, every body that one of them sends over HTTP is the document of
    its own request with the settings of its own client. *)
Theorem C89_sends : forall w l h log h2 l2, NoDup (map snd l) ->
  together h (map (fun x => request_routine w (fst x) (snd x)) l) log h2 l2 ->
  forall i c a, nth_error l i = Some (c, a) -> exists now, forall r x, In (i, EHttp r x) log ->
    hr_body r = [] \/ client_document now c (h a) (hr_body r).
Proof.
  intros w l h log h2 l2 Nd H i c a Hi. destruct (goroutines_alone _ _ _ _ _ _ Nd H) as [H1 _].
  destruct (H1 i c a Hi) as (now & rest & o & q & R & _). exists now. intros r x Hin.
  apply (sent_documents _ _ _ _ _ _ R r x). apply in_or_app. left. unfold done_by. apply in_flat_map.
  exists (i, EHttp r x). split; [exact Hin|]. cbn. rewrite Nat.eqb_refl. left. reflexivity.
Qed.
Print Assumptions C89_sends.

(** ** Schedules *)

Inductive reply := AtTime (t : gotime) | Answered (x : option http_response) | Plain.

Definition one (h : memory) (r : routine) (x : reply) : option (option event * memory * routine) :=
  match r, x with
  | Look k, AtTime t => Some (None, h, k t)
  | Store a f k, Plain => Some (None, written h a (f (h a)), k)
  | Load a k, Plain => Some (None, h, k (h a))
  | Talk (Done o) k, Plain => Some (None, h, k o)
  | Talk (Http r p) k, Answered x => Some (Some (EHttp r x), h, Talk (p x) k)
  | _, _ => None
  end.

Fixpoint scheduled (h : memory) (l : list routine) (s : list (nat * reply)) : option (list (nat * event) * memory * list routine) :=
  match s with
  | [] => Some ([], h, l)
  | (i, x) :: s =>
      match nth_error l i with
      | None => None
      | Some r =>
          match one h r x with
          | None => None
          | Some (e, h1, r1) =>
              match scheduled h1 (replaced i r1 l) s with
              | None => None
              | Some (log, h2, l2) => Some (match e with Some e => (i, e) :: log | None => log end, h2, l2)
              end
          end
      end
  end.

Lemma scheduled_together s : forall h l log h2 l2, scheduled h l s = Some (log, h2, l2) -> together h l log h2 l2.
Proof.
  induction s as [|[i x] s IH]; cbn [scheduled]; intros h l log h2 l2 H.
  - injection H as <- <- <-. constructor.
  - destruct (nth_error l i) as [r|] eqn:Hi; [|discriminate]. destruct (one h r x) as [[[e h1] r1]|] eqn:E; [|discriminate].
    destruct (scheduled h1 (replaced i r1 l) s) as [[[log' h2'] l2']|] eqn:Es; [|discriminate]. injection H as <- <- <-.
    econstructor; [exact Hi| |apply IH, Es].
    destruct r as [o|k|a f k|a k|p k]; cbn [one] in E; try discriminate; try (destruct x; try discriminate; injection E as <- <- <-; constructor).
    destruct p; destruct x; try discriminate; injection E as <- <- <-; constructor.
Qed.

Definition quiet_world : world := mkWorld zero_time (fun _ _ => None) (fun _ _ => ([], [])).
Definition their_request : Request :=
  mkRequest (bs "https://example.com/ofx") 0
    (mkSignonRequest zero_time (bs "myusername") (bs "secret") [] false [] (bs "BNK") (bs "1987") [] [] [])
    (rq_slots sample_request) false false.
Definition new_client : client := Basic (mkBasicClient OfxVersion203 (bs "OFXGO") (bs "0001") true false [] None).
Definition old_client : client := Basic (mkBasicClient OfxVersion103 (bs "QWIN") (bs "2400") true false [] None).

(** Two goroutines with different clients and the same request: what is sent may
    be the document of no client and no request. Here the header has the version
    of the first client and the rest the syntax of the second one's. *)
Theorem C89_needs_own_request : exists w c1 c2 h log h2 l2 i r x,
  together h [request_routine w c1 0; request_routine w c2 0] log h2 l2 /\ In (i, EHttp r x) log /\ hr_body r <> [] /\
  forall now c q, ~ client_document now c q (hr_body r).
Proof.
  pose (s := repeat (0, AtTime sample_date) 1 ++ repeat (0, Plain) 10 ++ (1, AtTime sample_date) :: repeat (1, Plain) 2 ++
             repeat (0, Plain) 8 ++ [(0, Answered None)]).
  pose (good := fun y : option (list (nat * event) * memory * list routine) =>
    match y with Some ([(0, EHttp r None)], _, _) => match read_document (hr_body r) with None => match hr_body r with [] => false | _ => true end | Some _ => false end | _ => false end).
  assert (E : good (scheduled (fun _ => their_request) [request_routine quiet_world new_client 0; request_routine quiet_world old_client 0] s) = true)
    by (vm_compute; reflexivity).
  unfold good in E. destruct (scheduled _ _ s) as [[[log h2] l2]|] eqn:Es; [|discriminate]. apply scheduled_together in Es.
  destruct log as [|[[|] [r [x|]| | |]] [|]]; try discriminate.
  exists quiet_world, new_client, old_client, (fun _ => their_request), [(0, EHttp r None)], h2, l2, 0, r, None.
  split; [exact Es|]. split; [left; reflexivity|]. destruct (read_document (hr_body r)) eqn:Er; [discriminate|].
  split; [intros X; rewrite X in E; discriminate|]. intros now c q (t & q' & t' & n & _ & _ & R & _). congruence.
Qed.
Print Assumptions C89_needs_own_request.

(** Two goroutines that share a client, take turns and both return. *)
Definition turns (n : nat) (x : reply) : list (nat * reply) := concat (repeat [(0, x); (1, x)] n).

Example C89_case : exists h log h2 o1 o2, NoDup [0; 1] /\
  together h [request_routine quiet_world old_client 0; request_routine quiet_world old_client 1] log h2 [Ended o1; Ended o2] /\
  length (done_by 0 log) = 1 /\ length (done_by 1 log) = 1 /\ h2 0 <> h 0.
Proof.
  pose (s := turns 1 (AtTime sample_date) ++ turns 18 Plain ++ turns 1 (Answered None) ++ turns 1 Plain).
  pose (good := fun y : option (list (nat * event) * memory * list routine) =>
    match y with
    | Some (log, h2, [Ended _; Ended _]) => Nat.eqb (length (done_by 0 log)) 1 && Nat.eqb (length (done_by 1 log)) 1 && N.eqb (rq_version (h2 0)) OfxVersion103
    | _ => false end).
  assert (E : good (scheduled (fun _ => their_request) [request_routine quiet_world old_client 0; request_routine quiet_world old_client 1] s) = true)
    by (vm_compute; reflexivity).
  unfold good in E. destruct (scheduled _ _ s) as [[[log h2] l2]|] eqn:Es; [|discriminate]. apply scheduled_together in Es.
  destruct l2 as [|[o1| | | |] [|[o2| | | |] [|]]]; try discriminate.
  apply andb_true_iff in E as [E E3]. apply andb_true_iff in E as [E1 E2].
  exists (fun _ => their_request), log, h2, o1, o2. split; [repeat constructor; cbn; intuition discriminate|]. split; [exact Es|].
  split; [apply Nat.eqb_eq, E1|]. split; [apply Nat.eqb_eq, E2|]. intros X. rewrite X in E3. discriminate.
Qed.
