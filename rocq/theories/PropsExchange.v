(** C78: Client.Request returns what the server computed from the request. *)
From Coq Require Import QArith Bool List.
From Verif Require Import GoStr GoTime Types Enums EnumTables Records Common Messages Codec CodecFacts SpecCodec Schema Document SpecDocument
  DocumentFacts SpecXml SpecWire Headers SpecHeader Wire Samples Url Clients SpecClients ClientFacts SpecReading SpecExchange.
From Verif Require Import PropsWire PropsClients.
From Verif Require ExchangeFacts RequestReading GoStrFacts.
Close Scope Q_scope.
Open Scope list_scope.

(** Whatever function [f] of the sign-on and the messages of a request the server
    computes: if it answers the last message of the client, then the client returns
    [f] of the request it was given, with the client's settings filled in. *)
Theorem C78_exchange : forall w e c q b q1 f tr r err q',
  let r0 := f (rq_signon q1) (rq_slots q1) in
  request_marshal (set_client_fields (w_now w) c q) = Some (b, q1) ->
  request_clean (set_client_fields (w_now w) c q) -> request_representable e q1 ->
  response_representable e r0 -> response_clean r0 -> known_version (rs_version r0) ->
  runs (client_request w e c q) tr ((r, err), q') -> answered_by e f tr ->
  r = Some r0 /\ err = None /\ q' = q1.
Proof. exact ExchangeFacts.exchange. Qed.
Print Assumptions C78_exchange.

(** All that a client sends, to whatever host and after whatever redirection, is
    the marshalled request, or an empty body. *)
Theorem C78_sent : forall w c q tr o q' b q1, runs (request_no_parse w c q) tr (o, q') ->
  request_marshal (set_client_fields (w_now w) c q) = Some (b, q1) ->
  q' = q1 /\
  (forall r a, In (EHttp r a) tr -> hr_body r = [] \/ hr_body r = b) /\
  (forall l h ok d ok' l', tr = l ++ EWrite h ok :: EWrite d ok' :: l' -> d = b).
Proof. exact ExchangeFacts.sent_bytes. Qed.
Print Assumptions C78_sent.

(** A response that can be marshalled is valid. *)
Theorem C78_valid : forall r s, response_marshal r = Some s -> response_valid r = None.
Proof. exact ExchangeFacts.marshalled_valid. Qed.
Print Assumptions C78_valid.

(** A server that sends statements to those who ask for one. *)
Definition sample_server (signon : SignonRequest) (messages : Slots) : Response :=
  mkResponse (rs_version sample_response) (rs_signon sample_response)
    (match sl_bank messages with [] => no_messages | _ => rs_slots sample_response end).

Definition case_request : Request := set_client_fields (w_now sample_world) (Basic sample_basic) vanguard_request.

Example C78_case : exists b q1 tr x,
  request_marshal case_request = Some (b, q1) /\ request_clean case_request /\ request_representable sample_env q1 /\
  sample_server (rq_signon q1) (rq_slots q1) = sample_response /\
  response_representable sample_env sample_response /\ response_clean sample_response /\ known_version (rs_version sample_response) /\
  runs (client_request sample_world sample_env (Basic sample_basic) vanguard_request) tr x /\
  answered_by sample_env sample_server tr.
Proof.
  destruct (request_marshal case_request) as [[b q1]|] eqn:E; [|exfalso; revert E; vm_compute; discriminate].
  assert (Eq : option_map snd (request_marshal case_request) = Some (sent_request case_request)) by (vm_compute; reflexivity).
  rewrite E in Eq. injection Eq as ->.
  destruct (drive_case _ (client_request sample_world sample_env (Basic sample_basic) vanguard_request)
    [RHttp (Some (answer 200 (-1) [] [] sample_body))]
    (fun tr _ => match tr with [EHttp r (Some rp)] => str_eqb (hr_body r) b && str_eqb (rp_body rp) sample_body && (rp_code rp =? 200)%Z | _ => false end))
    as (tr & x & H & Hb).
  { assert (Eb : b = or_empty (option_map fst (request_marshal case_request))) by (rewrite E; reflexivity).
    rewrite Eb. vm_compute. reflexivity. }
  exists b, (sent_request case_request), tr, x. split; [reflexivity|].
  assert (C : request_clean case_request).
  { split; [apply sample_clean; vm_compute; reflexivity|].
    intros set ms m Hs Hm. exact (proj2 sample_request_clean set ms m Hs Hm). }
  split; [exact C|].
  assert (R : request_representable sample_env (sent_request case_request)).
  { split; [apply sample_representable; vm_compute; reflexivity|].
    assert (G : forall m, In m (flat_map snd (request_sets (rq_slots (sent_request case_request)))) -> message_representable sample_env m).
    { cbn. intros m' Hm. repeat (destruct Hm as [<-|Hm]; [apply sample_representable; vm_compute; reflexivity|]). destruct Hm. }
    intros set ms m Hin Hm. apply G. apply in_flat_map. exists (set, ms). auto. }
  split; [exact R|]. split; [reflexivity|]. split; [exact sample_response_representable|]. split; [exact sample_response_clean|].
  split; [exists (bs "103"); cbn; auto|]. split; [exact H|].
  left. destruct tr as [|[r [rp|]| | |] [|]]; try discriminate Hb.
  apply andb_true_iff in Hb as [Hb Hc]. apply andb_true_iff in Hb as [Hb1 Hb2].
  exists [], r, rp. split; [reflexivity|].
  apply GoStrFacts.str_eqb_eq in Hb1. apply GoStrFacts.str_eqb_eq in Hb2. apply Z.eqb_eq in Hc.
  split; [rewrite Hb1; intros N; rewrite N in E; revert E; vm_compute; discriminate|].
  split; [exact Hc|]. intros so sl (v & n & En & Hs). rewrite Hb1 in En.
  destruct (RequestReading.request_sent_says sample_env case_request (sent_request case_request) b []) as (n' & En' & Hs').
  - exact (client_version_known (Basic sample_basic)).
  - exact C.
  - exact R.
  - exact E.
  - rewrite app_nil_r, En in En'. injection En' as _ <-.
    destruct (RequestReading.request_says_unique sample_env n _ _ _ _ Hs Hs') as [_ ->].
    change (sample_server so (rq_slots (sent_request case_request))) with sample_response.
    destruct (response_marshal sample_response) as [s|] eqn:M; [|exfalso; revert M; vm_compute; discriminate].
    exists s, []. split; [reflexivity|]. rewrite app_nil_r, Hb2. unfold sample_body. rewrite M. reflexivity.
Qed.
