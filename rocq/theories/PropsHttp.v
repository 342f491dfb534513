(** C88: the HTTP requests of a client, the redirections it follows and what it
    makes of the last answer. *)
From Coq Require Import QArith Lia.
From Verif Require Import GoStr SpecStr GoTime Types Records Common Codec Document Wire Url Clients SpecClients SpecUrl UrlFacts ClientFacts SpecHttp HttpFacts
  PropsClients.
Close Scope Q_scope.

(** Every history of RawRequest: the first request is as described and the
    redirections are followed as described. *)
Theorem C88_raw : forall w c u body again tr o hc, http_client_of c hc -> hc_limit hc <> 0 -> https u ->
  runs (raw_request w c u body again) tr o -> tr <> [] ->
  exists r a, first_request c u body r /\ followed w hc again r [] r tr a /\ returned true a o.
Proof. exact raw_history. Qed.
Print Assumptions C88_raw.

(** All such histories are possible. *)
Theorem C88_possible : forall w c u body again tr a r hc host path, http_client_of c hc -> hc_limit hc <> 0 -> names u host path ->
  first_request c u body r -> followed w hc again r [] r tr a ->
  exists o, runs (raw_request w c u body again) tr o /\ returned true a o.
Proof.
  intros w c u body again tr a r hc host path Hc Hl Hn. pose proof (names_https _ _ _ Hn) as Hu. apply raw_possible; auto.
  apply (parse_url_iff _ Hu). eauto.
Qed.
Print Assumptions C88_possible.

(** RequestNoParse: the marshalled request is sent so; the Vanguard client sends
    the same bytes once more, with the cookies it got, if the answer was empty. *)
Theorem C88_request : forall w c hc q tr o q', http_client_of c hc -> hc_limit hc <> 0 -> https (rq_url q) ->
  runs (request_no_parse w c q) tr (o, q') -> tr <> [] ->
  exists b r tr1 a, request_marshal (set_client_fields (w_now w) c q) = Some (b, q') /\
    first_request c (rq_url q) b r /\ followed w hc true r [] r tr1 a /\
    (tr = tr1 /\ returned true a o /\ (forall bc rp, c = Vanguard bc -> a = Some rp -> ~ retried rp) \/
     exists bc rp tr2 a2, c = Vanguard bc /\ a = Some rp /\ retried rp /\ tr = tr1 ++ tr2 /\
       let r2 := post (rq_url q) [(bs "Content-Type", bs "application/x-ofx")] (rp_cookies rp) b in
       followed w default_client true r2 [] r2 tr2 a2 /\ returned false a2 o).
Proof. exact no_parse_http. Qed.
Print Assumptions C88_request.

(** The Discover client. *)
Theorem C88_discover : forall w bc u body again tr o, runs (raw_request w (Discover bc) u body again) tr o -> returned false (last_answer tr) o.
Proof. exact discover_returned. Qed.
Print Assumptions C88_discover.

(** The second request is sent after an error status too, and its result is
    returned instead of the error. *)
Theorem C88_retry_after_error : exists bc q tr o q' r1 rp1 r2 rp2, runs (request_no_parse sample_world (Vanguard bc) q) tr (o, q') /\
  tr = [EHttp r1 (Some rp1); EHttp r2 (Some rp2)] /\ rp_code rp1 = 500%Z /\ o = (Some rp2, None).
Proof.
  exists sample_basic, vanguard_request.
  destruct (drive_case _ (request_no_parse sample_world (Vanguard sample_basic) vanguard_request)
    [RHttp (Some (answer 500 0 [(bs "session", bs "token")] [] [])); RHttp (Some (answer 200 3 [] [] (bs "xyz")))]
    (fun tr x => match tr, fst x with
                 | [EHttp _ (Some rp1); EHttp _ (Some rp2)], (Some rp, None) =>
                     Z.eqb (rp_code rp1) 500 && Z.eqb (rp_code rp2) 200
                 | _, _ => false end)) as (tr & [o q'] & Hr & E).
  { vm_compute. reflexivity. }
  pose proof Hr as Hh. apply (C88_request sample_world _ default_client) in Hh;
    [|constructor|discriminate|eexists; reflexivity|intros ->; discriminate E].
  destruct tr as [|[r1 [rp1|]| | |] [|[r2 [rp2|]| | |] [|]]]; try discriminate E.
  cbn [fst] in E. destruct o as [[rp|] [err|]]; try discriminate E. apply andb_prop in E as [E1 E2]. apply Z.eqb_eq in E1, E2.
  exists [EHttp r1 (Some rp1); EHttp r2 (Some rp2)], (Some rp, None), q', r1, rp1, r2, rp2. split; [exact Hr|]. split; [reflexivity|]. split; [exact E1|].
  assert (Hl : last_answer [EHttp r1 (Some rp1); EHttp r2 (Some rp2)] = Some rp).
  { apply no_parse_runs in Hr as [(_ & X & _)|(b & tr1 & o1 & _ & H1 & [(<- & <- & _)|(bc & rp0 & tr2 & _ & _ & _ & _ & -> & H2)])]; [discriminate| |].
    - cbn [raw_request] in H1. apply vanguard_raw_runs in H1 as (Hp & _). apply proper_response in Hp. exact Hp.
    - apply cookies_raw_runs in H2 as (Hp & _ & [->|_]).
      + apply proper_response in Hp. discriminate.
      + apply proper_response in Hp. revert Hp. destruct tr2; [discriminate|]. unfold last_answer. intros <-. f_equal.
        clear. induction tr1 as [|x tr1 IH]; [reflexivity|]. cbn [app]. destruct (tr1 ++ e :: tr2) eqn:E; [destruct tr1; discriminate|]. exact IH. }
  cbn in Hl. congruence.
Qed.
Print Assumptions C88_retry_after_error.

(** A client with a user agent, sent on once with 303 and then answered. *)
Example C88_case : exists r,
  first_request (Basic sample_basic) (bs "https://bank.example.com/ofx") (bs "body") r /\
  http_client_of (Basic sample_basic) default_client /\ names (bs "https://bank.example.com/ofx") (bs "bank.example.com") (bs "/ofx") /\
  followed sample_world default_client true r [] r
    [EHttp r (Some (answer 303 0 [] (bs "https://bank.example.com/other") []));
     EHttp (mkHttpRequest (bs "GET") (bs "https://bank.example.com/other") (hr_headers r) [] []) (Some (answer 200 0 [] [] []))]
    (Some (answer 200 0 [] [] [])).
Proof.
  eexists. split; [apply (fr_basic _ _ _ [(bs "User-Agent", bs "agent")]); right; split; [discriminate|reflexivity]|].
  split; [constructor; reflexivity|]. split.
  - assert (Hu : https (bs "https://bank.example.com/ofx")) by (eexists; reflexivity).
    exact (parse_url_names _ (mkUrl (bs "bank.example.com") (bs "/ofx") []) Hu eq_refl).
  - eapply fo_next; [left; cbn; auto|discriminate| |reflexivity|cbn; lia|apply fo_answered].
    + split; [reflexivity|]. split; [left; cbn; auto|reflexivity].
    + unfold moved. cbn. lia.
Qed.
