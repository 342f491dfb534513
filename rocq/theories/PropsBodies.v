(** C92: the bodies of answers. *)
From Coq Require Import ZArith Lia Bool.
From Verif Require Import GoStr Types Codec Document Wire Marshal Url Clients SpecClients ClientFacts Bodies SpecBodies BodyFacts Samples PropsClients.

(** With the bodies the clients have the conversations, and return the results, of
    C41 to C46 and C56. *)
Theorem C92_same_request : forall w e c q tr x q',
  (exists n o, lives (request_life w e c q) 0 [] tr (x, q') n o) <-> runs (client_request w e c q) tr (x, q').
Proof.
  intros w e c q tr x q'. split; [intros (n & o & H); exact (request_life_runs _ _ _ _ _ _ _ _ _ H)|apply request_life_make].
Qed.
Print Assumptions C92_same_request.

Theorem C92_same_no_parse : forall w c q tr a err q',
  (exists b n o, lives (no_parse_life w c q) 0 [] tr ((b, err), q') n o /\ a = option_map snd b) <-> runs (request_no_parse w c q) tr ((a, err), q').
Proof.
  intros w c q tr a err q'. split.
  - intros (b & n & o & H & ->). exact (proj1 (no_parse_life_runs _ _ _ _ _ _ _ _ H)).
  - intros H. apply no_parse_life_make in H as ([b er] & n & o & H & E). injection E as <- <-. exists b, n, o. auto.
Qed.
Print Assumptions C92_same_no_parse.

(** After Request only two bodies can be open: that of a last answer that is not 200,
    and that of an answer that made the Vanguard client ask again. *)
Theorem C92_left_open : forall w e c q tr x q' n' o, lives (request_life w e c q) 0 [] tr (x, q') n' o ->
  forall n rp, In (n, rp) o ->
    last_answer tr = Some rp /\ rp_code rp <> 200%Z \/
    n = 0 /\ (exists bc, c = Vanguard bc) /\ (rp_length rp <= 0)%Z /\ rp_cookies rp <> [].
Proof. exact request_left_open. Qed.
Print Assumptions C92_left_open.

(** If it returns a response, then only the latter. *)
Theorem C92_read : forall w e c q tr r err q' n' o, lives (request_life w e c q) 0 [] tr ((Some r, err), q') n' o ->
  forall n rp, In (n, rp) o -> n = 0 /\ (exists bc, c = Vanguard bc) /\ (rp_length rp <= 0)%Z /\ rp_cookies rp <> [].
Proof. exact request_read. Qed.
Print Assumptions C92_read.

(** A body that is parsed is closed, also if it cannot be parsed. *)
Theorem C92_parsed : forall w e c q tr x q' n' o rp, lives (request_life w e c q) 0 [] tr (x, q') n' o ->
  last_answer tr = Some rp -> rp_code rp = 200%Z -> (forall bc, c <> Vanguard bc) -> o = [].
Proof. exact request_closed. Qed.
Print Assumptions C92_parsed.

(** RequestNoParse never hands over a body that is closed; it keeps open what it
    hands over, the body of an answer that is not 200, and that of the first answer. *)
Theorem C92_no_parse : forall w c q tr b err q' n' o, lives (no_parse_life w c q) 0 [] tr ((b, err), q') n' o ->
  (forall x, b = Some x -> In x o) /\
  forall n rp, In (n, rp) o ->
    b = Some (n, rp) \/
    b = None /\ last_answer tr = Some rp /\ rp_code rp <> 200%Z \/
    n = 0 /\ (exists bc, c = Vanguard bc) /\ (rp_length rp <= 0)%Z /\ rp_cookies rp <> [].
Proof. intros w c q tr b err q' n' o H. exact (no_parse_left_open _ _ _ _ _ _ _ _ H). Qed.
Print Assumptions C92_no_parse.

(** So does RawRequest, where only the Discover client drops a response. *)
Theorem C92_raw : forall w c u body rw tr b err n' o, lives (raw_life w c u body rw 0) 0 [] tr (b, err) n' o ->
  (forall x, b = Some x -> In x o) /\
  forall n rp, In (n, rp) o -> b = Some (n, rp) \/ (exists bc, c = Discover bc) /\ last_answer tr = Some rp /\ rp_code rp <> 200%Z.
Proof. intros w c u body rw tr b err n' o H. exact (raw_left_open _ _ _ _ _ _ _ _ _ H). Qed.
Print Assumptions C92_raw.

(** The RequestNoParse of the basic client hands over every body that is open. *)
Theorem C92_basic : forall w bc q tr b err q' n' o, lives (no_parse_life w (Basic bc) q) 0 [] tr ((b, err), q') n' o ->
  o = match b with Some x => [x] | None => [] end.
Proof. intros w bc q tr b err q' n' o H. exact (no_parse_basic _ _ _ _ _ _ _ _ H). Qed.
Print Assumptions C92_basic.

(** As stated, C92 is false: if an institution answers with an error, Request returns
    the error only, and the body stays open. *)
Theorem C92_request_refuted : exists w e bc q tr err q' n o rp,
  lives (request_life w e (Basic bc) q) 0 [] tr ((None, Some err), q') n o /\ In (0, rp) o.
Proof.
  exists sample_world, sample_env, sample_basic, vanguard_request.
  destruct (drive_life_case _ (request_life sample_world sample_env (Basic sample_basic) vanguard_request)
    [[RHttp (Some (answer 500 3 [] [] (bs "xyz")))]]
    (fun _ x o => match fst x, o with (None, Some _), [(0, _)] => true | _, _ => false end)) as (tr & [[a er] q'] & n & o & H & Hb); [vm_compute; reflexivity|].
  cbn [fst] in Hb. destruct a; [discriminate|]. destruct er as [err|]; [|discriminate]. destruct o as [|[[|m] rp] [|? ?]]; try discriminate Hb.
  exists tr, err, q', n, [(0, rp)], rp. split; [exact H|]. left. reflexivity.
Qed.
Print Assumptions C92_request_refuted.

(** A response that is read, one that cannot be read, and the Vanguard client, which can
    leave two bodies behind. *)
Example C92_case :
  (exists tr x n o, lives (request_life sample_world sample_env (Vanguard sample_basic) vanguard_request) 0 [] tr x n o /\
     match fst (fst x), o with Some _, [(0, _)] => true | _, _ => false end = true) /\
  (exists tr x n o, lives (request_life sample_world sample_env (Basic sample_basic) vanguard_request) 0 [] tr x n o /\
     match snd (fst x), last_answer tr with Some _, Some rp => Z.eqb (rp_code rp) 200 && Nat.eqb (length o) 0 | _, _ => false end = true) /\
  exists tr x n o, lives (request_life sample_world sample_env (Vanguard sample_basic) vanguard_request) 0 [] tr x n o /\
     match snd (fst x), o with Some _, [(0, rp); (1, rp')] => Z.eqb (rp_code rp) 200 && Z.eqb (rp_code rp') 500 | _, _ => false end = true.
Proof.
  split; [|split].
  - apply (drive_life_case _ _ [[RHttp (Some (answer 200 0 [(bs "session", bs "token")] [] []))]; [RHttp (Some (answer 200 (-1) [] [] sample_body))]]
      (fun tr x o => match fst (fst x), o with Some _, [(0, _)] => true | _, _ => false end)).
    vm_compute. reflexivity.
  - apply (drive_life_case _ _ [[RHttp (Some (answer 200 3 [] [] (bs "xyz")))]]
      (fun tr x o => match snd (fst x), last_answer tr with Some _, Some rp => Z.eqb (rp_code rp) 200 && Nat.eqb (length o) 0 | _, _ => false end)).
    vm_compute. reflexivity.
  - apply (drive_life_case _ _ [[RHttp (Some (answer 200 0 [(bs "session", bs "token")] [] []))]; [RHttp (Some (answer 500 3 [] [] (bs "xyz")))]]
      (fun tr x o => match snd (fst x), o with Some _, [(0, rp); (1, rp')] => Z.eqb (rp_code rp) 200 && Z.eqb (rp_code rp') 500 | _, _ => false end)).
    vm_compute. reflexivity.
Qed.
