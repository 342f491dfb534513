(** C75 and C78 for requests whose fields are not exact, such as those with the
    time of a clock. *)
From Coq Require Import QArith Bool List.
From Verif Require Import GoStr GoTime Types Enums EnumTables Records Common Messages Codec CodecFacts SpecCodec SpecDate Schema Document SpecDocument
  DocumentFacts SpecXml SpecWire Headers SpecHeader Wire Samples Url Clients SpecClients ClientFacts SpecReading SpecExchange
  SpecDecode ClosureDocs SpecAgain SpecRequestAgain RequestAgainFacts.
From Verif Require Import AgainReadFacts PropsWire PropsClients PropsExchange.
From Verif Require GoStrFacts RequestReading.
Close Scope Q_scope.
Open Scope list_scope.

(** Whoever reads the bytes of a request finds the request in them, with each field
    as it is read from its own text. *)
Theorem C75_readable : forall e q q' s rest, known_version (rq_version q) -> request_clean q -> request_every (readable e) q' ->
  request_marshal q = Some (s, q') ->
  exists n, read_document (s ++ rest) = Some (rq_version q, n) /\
    request_says e n (signon_changed (again e) (rq_signon q')) (slots_changed (again e) (rq_slots q')).
Proof. exact request_sent_again. Qed.
Print Assumptions C75_readable.

(** In particular, if the dates of the request have any nanoseconds, the request
    with the dates to the millisecond. *)
Theorem C75_clock : forall e q q' s rest, known_version (rq_version q) -> request_clean q -> request_every (exact_to_ms e) q' ->
  request_marshal q = Some (s, q') ->
  exists n, read_document (s ++ rest) = Some (rq_version q, n) /\
    request_says e n (signon_changed cut_ms (rq_signon q')) (slots_changed cut_ms (rq_slots q')).
Proof. exact request_sent_cut. Qed.
Print Assumptions C75_clock.

(** C78_exchange with a clock of nanoseconds, and with a server that may answer with
    fields that are not exact. The client returns what the server computed from the
    request to the millisecond, with each field as it is read from its own text. *)
Theorem C78_clock : forall w e c q b q1 f tr r err q',
  let r0 := f (signon_changed cut_ms (rq_signon q1)) (slots_changed cut_ms (rq_slots q1)) in
  let r1 := response_changed (again e) r0 in
  request_marshal (set_client_fields (w_now w) c q) = Some (b, q1) ->
  request_clean (set_client_fields (w_now w) c q) -> request_every (exact_to_ms e) q1 ->
  response_every (readable e) r0 -> response_clean r0 -> known_version (rs_version r0) ->
  (forall set ms m, In (set, ms) (response_sets (rs_slots r0)) -> In m ms -> loanless m) ->
  response_valid r1 = None ->
  runs (client_request w e c q) tr ((r, err), q') -> answered_by e f tr ->
  r = Some r1 /\ err = None /\ q' = q1.
Proof. exact exchange_cut. Qed.
Print Assumptions C78_clock.

(** A clock that shows nanoseconds. *)
Definition clock : gotime := mkTime (t_ns sample_date + 456789)%Z (t_off sample_date) (t_zone sample_date).
Definition clock_world : world := mkWorld clock (w_resolve sample_world) (w_carry sample_world).
Definition clock_request : Request := set_client_fields clock (Basic sample_basic) vanguard_request.

Lemma clock_clean : request_clean clock_request.
Proof.
  split; [apply sample_clean; vm_compute; reflexivity|].
  intros set ms m Hs Hm. exact (proj2 sample_request_clean set ms m Hs Hm).
Qed.

Lemma sample_exact t v : everyb (fun l v => leaf_okb l (cut_ms l v)) t v = true -> every (exact_to_ms sample_env) t v.
Proof. apply (everyb_every (fun l v => leaf_okb l (cut_ms l v)) (exact_to_ms sample_env)). intros l x H. apply leaf_okb_ok, H. Qed.

Lemma clock_exact : request_every (exact_to_ms sample_env) (sent_request clock_request).
Proof.
  split; [apply sample_exact; vm_compute; reflexivity|].
  assert (G : forall m, In m (flat_map snd (request_sets (rq_slots (sent_request clock_request)))) -> message_every (exact_to_ms sample_env) m).
  { cbn. intros m' Hm. repeat (destruct Hm as [<-|Hm]; [apply sample_exact; vm_compute; reflexivity|]). destruct Hm. }
  intros set ms m Hin Hm. apply G. apply in_flat_map. exists (set, ms). auto.
Qed.

Example C75_clock_case : exists s,
  known_version (rq_version clock_request) /\ request_clean clock_request /\
  request_every (exact_to_ms sample_env) (sent_request clock_request) /\
  request_marshal clock_request = Some (s, sent_request clock_request) /\
  SignonRequest_DtClient (rq_signon clock_request) = clock /\
  SignonRequest_DtClient (signon_changed cut_ms (rq_signon clock_request)) = sample_date.
Proof.
  destruct (request_marshal clock_request) as [[s q']|] eqn:E; [|exfalso; revert E; vm_compute; discriminate].
  assert (Eq : option_map snd (request_marshal clock_request) = Some (sent_request clock_request)) by (vm_compute; reflexivity).
  rewrite E in Eq. injection Eq as ->. exists s. split; [exact (client_version_known (Basic sample_basic))|].
  split; [exact clock_clean|]. split; [exact clock_exact|]. split; [reflexivity|]. split; vm_compute; reflexivity.
Qed.

(** The request in this case is not representable: C75_request does not say what is sent. *)
Example C75_clock_needed : ~ date_ok sample_env clock.
Proof.
  intros (c & off & n & E & _). apply (f_equal (fun t => t_ns t mod 1000000)%Z) in E. cbn beta in E.
  assert (L : (t_ns clock mod 1000000 = 456789)%Z) by (vm_compute; reflexivity). rewrite L in E. clear L. cbn [t_ns] in E.
  unfold instant in E. revert E. generalize (day_number (cy c) (cmo c) (cd c) * 86400 + ch c * 3600 + cmi c * 60 + cs c - off)%Z.
  intros K E. replace (K * 1000000000 + cms c * 1000000)%Z with ((K * 1000 + cms c) * 1000000)%Z in E by ring.
  rewrite Z.mod_mul in E by discriminate. discriminate E.
Qed.

Lemma sample_response_readable : response_every (readable sample_env) sample_response.
Proof.
  destruct sample_response_representable as [H1 H2]. apply (response_enums (leaf_ok sample_env)).
  - intros l v Hw H. assert (Hrt : leaf_rt sample_env l v) by (apply leaf_ok_rt; [intros t ->; exact Hw | exact H]).
    unfold readable, back. unfold leaf_rt in Hrt. destruct (leaf_marshal l v) as [[s|]|]; [eauto|eauto|contradiction].
  - split; [exact H1|]. intros set ms m Hs Hm. specialize (H2 set ms m Hs Hm).
    destruct m; cbn [message_representable message_every] in *; try exact H2; exact (proj1 H2).
Qed.

Example C78_clock_case : exists b tr x,
  request_marshal clock_request = Some (b, sent_request clock_request) /\ request_clean clock_request /\
  request_every (exact_to_ms sample_env) (sent_request clock_request) /\
  sample_server (signon_changed cut_ms (rq_signon (sent_request clock_request))) (slots_changed cut_ms (rq_slots (sent_request clock_request))) = sample_response /\
  response_every (readable sample_env) sample_response /\ response_clean sample_response /\ known_version (rs_version sample_response) /\
  (forall set ms m, In (set, ms) (response_sets (rs_slots sample_response)) -> In m ms -> loanless m) /\
  response_valid (response_changed (again sample_env) sample_response) = None /\
  runs (client_request clock_world sample_env (Basic sample_basic) vanguard_request) tr x /\
  answered_by sample_env sample_server tr.
Proof.
  destruct (request_marshal clock_request) as [[b q1]|] eqn:E; [|exfalso; revert E; vm_compute; discriminate].
  assert (Eq : option_map snd (request_marshal clock_request) = Some (sent_request clock_request)) by (vm_compute; reflexivity).
  rewrite E in Eq. injection Eq as ->.
  destruct (drive_case _ (client_request clock_world sample_env (Basic sample_basic) vanguard_request)
    [RHttp (Some (answer 200 (-1) [] [] sample_body))]
    (fun tr _ => match tr with [EHttp r (Some rp)] => str_eqb (hr_body r) b && str_eqb (rp_body rp) sample_body && (rp_code rp =? 200)%Z | _ => false end))
    as (tr & x & H & Hb).
  { assert (Eb : b = or_empty (option_map fst (request_marshal clock_request))) by (rewrite E; reflexivity).
    rewrite Eb. vm_compute. reflexivity. }
  exists b, tr, x. split; [reflexivity|]. split; [exact clock_clean|]. split; [exact clock_exact|]. split; [reflexivity|].
  split; [exact sample_response_readable|]. split; [exact sample_response_clean|].
  split; [exists (bs "103"); cbn; auto|].
  split.
  { intros set ms m Hs Hm. pose proof (proj2 sample_response_representable set ms m Hs Hm) as R.
    destruct m; cbn [message_representable loanless] in *; try exact I; exact (proj2 R). }
  split; [vm_compute; reflexivity|]. split; [exact H|].
  left. destruct tr as [|[r [rp|]| | |] [|]]; try discriminate Hb.
  apply andb_true_iff in Hb as [Hb Hc]. apply andb_true_iff in Hb as [Hb1 Hb2].
  exists [], r, rp. split; [reflexivity|].
  apply GoStrFacts.str_eqb_eq in Hb1. apply GoStrFacts.str_eqb_eq in Hb2. apply Z.eqb_eq in Hc.
  split; [rewrite Hb1; intros N; rewrite N in E; revert E; vm_compute; discriminate|].
  split; [exact Hc|]. intros so sl (v & n & En & Hs). rewrite Hb1 in En.
  destruct (C75_clock sample_env clock_request (sent_request clock_request) b []) as (n' & En' & Hs').
  - exact (client_version_known (Basic sample_basic)).
  - exact clock_clean.
  - exact clock_exact.
  - exact E.
  - rewrite app_nil_r, En in En'. injection En' as _ <-.
    destruct (RequestReading.request_says_unique sample_env n _ _ _ _ Hs Hs') as [_ ->].
    change (sample_server so (slots_changed cut_ms (rq_slots (sent_request clock_request)))) with sample_response.
    destruct (response_marshal sample_response) as [s|] eqn:M; [|exfalso; revert M; vm_compute; discriminate].
    exists s, []. split; [reflexivity|]. rewrite app_nil_r, Hb2. unfold sample_body. rewrite M. reflexivity.
Qed.
