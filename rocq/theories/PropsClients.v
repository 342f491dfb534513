(** C41-C46, C56: the clients. *)
From Coq Require Import QArith Lia Bool ZifyBool ZifyNat ZifyN.
From Verif Require Import GoStr SpecStr GoStrFacts GoNum SpecNum GoTime Types Enums EnumTables Records Common Messages Codec SpecCodec Schema
  SpecValid ValidFacts Document SpecDocument SpecXml Wire SpecWire SpecHeader WireFacts Url Clients SpecClients ClientFacts Samples.
Close Scope Q_scope.

(** ** Samples *)

Definition sample_world : world :=
  mkWorld sample_date (fun _ loc => Some loc) (fun r _ => (hr_headers r, [])).
Definition sample_basic : BasicClient := mkBasicClient OfxVersion102 (bs "QWIN") (bs "2400") true false (bs "agent") None.
Definition zero_basic : BasicClient := mkBasicClient 0 [] [] false false [] None.
Definition or_empty (o : option str) : str := match o with Some s => s | None => [] end.
Definition answer (code len : Z) (cookies : list cookie) (location body : str) : http_response :=
  mkHttpResponse code (bs "status") len cookies location body.
Definition sample_body : str := or_empty (response_marshal sample_response).
Definition vanguard_request : Request :=
  mkRequest vanguard_url 0 (mkSignonRequest zero_time (bs "myusername") (bs "secret") [] false [] (bs "BNK") (bs "1987") [] [] []) (rq_slots sample_request) false false.

(** ** https *)

(** C41: for any other URL nothing is sent and an error is returned. *)
Theorem C41_raw_refused : forall w c u body rw tr o, ~ https u -> runs (raw_request w c u body rw) tr o ->
  tr = [] /\ fst o = None /\
  snd o = Some (EPlain (bs "Refusing to send OFX request with possible plain-text password over non-https protocol")).
Proof. intros w c u body rw tr o Hu H. destruct (raw_refused _ _ _ _ _ _ _ Hu H) as [-> ->]. repeat split. Qed.
Print Assumptions C41_raw_refused.

Theorem C41_no_parse_refused : forall w c q tr o q', ~ https (rq_url q) -> runs (request_no_parse w c q) tr (o, q') ->
  tr = [] /\ fst o = None /\ snd o <> None.
Proof. exact no_parse_refused. Qed.
Print Assumptions C41_no_parse_refused.

Theorem C41_request_refused : forall w e c q tr r err q', ~ https (rq_url q) -> runs (client_request w e c q) tr ((r, err), q') ->
  tr = [] /\ r = None /\ err <> None.
Proof.
  intros w e c q tr r err q' Hu H. pose proof (request_result _ _ _ _ _ _ _ _ H) as Hres.
  apply client_request_runs in H as (o & H & _). apply no_parse_refused in H as [-> _]; [|exact Hu].
  split; [reflexivity|]. destruct Hres as [(r0 & rp & _ & _ & Hl & _)|(-> & Hr & _)]; [discriminate|auto].
Qed.
Print Assumptions C41_request_refused.

(** The first request always goes to an https URL. Redirections are followed by
    net/http, which does not insist on https. So every HTTP request either goes to
    an https URL or where the answer just before it sent the client. *)
Theorem C41_raw_partial : forall w c u body rw tr o, runs (raw_request w c u body rw) tr o ->
  forall l1 r a l2, tr = l1 ++ EHttp r a :: l2 ->
    https (hr_url r) \/ exists l0 r0 rp b, l1 = l0 ++ [EHttp r0 (Some rp)] /\ redirected w b r0 rp r.
Proof. intros w c u body rw tr o H. exact (raw_guarded _ _ _ _ _ _ _ H). Qed.
Print Assumptions C41_raw_partial.

Theorem C41_no_parse_partial : forall w c q tr o q', runs (request_no_parse w c q) tr (o, q') ->
  forall l1 r a l2, tr = l1 ++ EHttp r a :: l2 ->
    https (hr_url r) \/ exists l0 r0 rp b, l1 = l0 ++ [EHttp r0 (Some rp)] /\ redirected w b r0 rp r.
Proof. intros w c q tr o q' H. exact (no_parse_guarded _ _ _ _ _ _ H). Qed.
Print Assumptions C41_no_parse_partial.

(** The Discover client uses TLS connections only. *)
Theorem C41_discover : forall w bc u body rw tr o, runs (raw_request w (Discover bc) u body rw) tr o ->
  forall r a, ~ In (EHttp r a) tr.
Proof.
  intros w bc u body rw tr o H r a Hi. apply discover_history in H as [->|(x & _ & _ & Hc)]; [exact Hi|].
  destruct Hc as [->|[[ok ->]|[ok [y ->]]]]; cbn in Hi; intuition discriminate.
Qed.
Print Assumptions C41_discover.

(** As stated, C41 is false: a server can have the client send the request, with
    the password, over plain http. *)
Theorem C41_redirect_refuted : exists w c q tr o q' r a,
  https (rq_url q) /\ runs (request_no_parse w c q) tr (o, q') /\ In (EHttp r a) tr /\ ~ https (hr_url r) /\
  exists x y, hr_body r = x ++ bs "<USERPASS>" ++ SignonRequest_UserPass (rq_signon q) ++ y.
Proof.
  exists sample_world, (Basic sample_basic), vanguard_request.
  destruct (drive_case _ (request_no_parse sample_world (Basic sample_basic) vanguard_request)
    [RHttp (Some (answer 307 0 [] (bs "http://evil.example.com/") [])); RHttp None]
    (fun tr _ => match tr with
                 | [_; EHttp r a] => negb (has_prefix (bs "https://") (hr_url r)) &&
                     match index_of (bs "<USERPASS>" ++ SignonRequest_UserPass (rq_signon vanguard_request)) (hr_body r) with
                     | Some _ => true | None => false end
                 | _ => false
                 end)) as (tr & [o q'] & H & Hb); [vm_compute; reflexivity|].
  destruct tr as [|e1 [|[r a| | |] [|? ?]]]; try discriminate. exists [e1; EHttp r a], o, q', r, a.
  apply andb_true_iff in Hb as [Hb1 Hb2]. split; [eexists; reflexivity|]. split; [exact H|]. split; [right; left; reflexivity|].
  split; [apply https_false; destruct (has_prefix (bs "https://") (hr_url r)); [discriminate|reflexivity]|].
  destruct (index_of _ (hr_body r)) as [n|] eqn:E; [|discriminate]. apply index_of_some in E as (y & E & _).
  exists (firstn n (hr_body r)), y. etransitivity; [exact E|]. rewrite <- !app_assoc. reflexivity.
Qed.
Print Assumptions C41_redirect_refuted.

Example C41_case :
  (exists tr o q', runs (request_no_parse sample_world (Basic sample_basic) vanguard_request) tr (o, q') /\
     match tr with [EHttp r _] => str_eqb (hr_url r) vanguard_url | _ => false end = true) /\
  ~ https (bs "http://example.com/") /\ ~ https (bs "HTTPS://example.com/").
Proof.
  split.
  - destruct (drive_case _ (request_no_parse sample_world (Basic sample_basic) vanguard_request) [RHttp None]
      (fun tr _ => match tr with [EHttp r _] => str_eqb (hr_url r) vanguard_url | _ => false end)) as (tr & [o q'] & H & Hb);
      [vm_compute; reflexivity|]. exists tr, o, q'. auto.
  - split; apply https_false; reflexivity.
Qed.

(** ** Vanguard *)

(** C42: there is at most one more round, only if the first one ended with an
    answer without known content and with cookies, and it sends the same document
    and these cookies. *)
Theorem C42_vanguard_rounds : forall w bc q tr o q', runs (request_no_parse w (Vanguard bc) q) tr (o, q') ->
  tr = [] \/
  exists body tr1 tr2 r1 a1,
    tr = tr1 ++ tr2 /\ first_post (rq_url q) [] body r1 /\ round w body r1 tr1 a1 /\ length tr1 <= 10 /\
    (tr2 = [] /\ (forall rp, fst o = Some rp -> (rp_length rp <= 0)%Z -> rp_cookies rp = []) \/
     exists rp r2 a2, a1 = Some rp /\ (rp_length rp <= 0)%Z /\ rp_cookies rp <> [] /\
       first_post (rq_url q) (rp_cookies rp) body r2 /\ round w body r2 tr2 a2 /\ length tr2 <= 10).
Proof. exact vanguard_rounds. Qed.
Print Assumptions C42_vanguard_rounds.

Theorem C42_vanguard_two : forall w bc q tr o q', runs (request_no_parse w (Vanguard bc) q) tr (o, q') ->
  (forall r rp, In (EHttp r (Some rp)) tr -> ~ redirects rp) -> length tr <= 2.
Proof. exact vanguard_two. Qed.
Print Assumptions C42_vanguard_two.

Example C42_case : exists tr x, runs (request_no_parse sample_world (Vanguard sample_basic) vanguard_request) tr x /\
  match tr with
  | [EHttp r1 _; EHttp r2 _] => match hr_cookies r1, hr_cookies r2 with [], [(n, v)] => str_eqb v (bs "token") | _, _ => false end
  | _ => false
  end = true.
Proof.
  apply (drive_case _ _ [RHttp (Some (answer 200 0 [(bs "session", bs "token")] [] [])); RHttp (Some (answer 200 3 [(bs "a", bs "b")] [] (bs "xyz")))]).
  vm_compute. reflexivity.
Qed.

(** ** Discover *)

(** C43: what is written to the connection is one HTTP request with the four
    headers in this order; the length is that of the body. This needs a path that
    can be a request target. *)
Theorem C43_history : forall w bc u body rw tr o, runs (raw_request w (Discover bc) u body rw) tr o ->
  tr = [] \/
  exists x, https u /\ parse_url u = Some x /\
    let host := match port x with [] => u_host x ++ bs ":443" | _ => u_host x end in
    tr = [EDial host false] \/
    (exists ok, tr = [EDial host true; EWrite (discover_headers x body) ok; EWrite body false]) \/
    (exists ok a, tr = [EDial host true; EWrite (discover_headers x body) ok; EWrite body true; ERead a]).
Proof. exact discover_history. Qed.
Print Assumptions C43_history.

Theorem C43_framing_partial : forall u x body, parse_url u = Some x -> request_target (match u_path x with [] => bs "/" | p => p end) ->
  exists len, digits len (Z.of_nat (length body)) /\ len <> [] /\
    http_message (match u_path x with [] => bs "/" | p => p end)
      [(bs "Content-Type", bs "application/x-ofx"); (bs "Host", hostname x); (bs "Content-Length", len); (bs "Connection", bs "Keep-Alive")]
      body (discover_headers x body ++ body).
Proof. exact discover_framing. Qed.
Print Assumptions C43_framing_partial.

(** The path has no line ends unless they are percent-encoded in the URL. *)
Theorem C43_plain_path : forall u x, ~ In "%"%char u -> parse_url u = Some x -> one_line (u_path x).
Proof. exact plain_path. Qed.
Print Assumptions C43_plain_path.

(** With percent-encoded line ends a URL adds header lines. *)
Theorem C43_refuted : exists u x, parse_url u = Some x /\ forall body, exists rest,
  discover_headers x body = bs "POST /" ++ [chr 13; chr 10] ++ bs "X-Injected: yes HTTP/1.1" ++ [chr 13; chr 10] ++ rest.
Proof.
  exists (bs "https://ofx.discovercard.com/%0D%0AX-Injected:%20yes"). eexists. split; [vm_compute; reflexivity|].
  intros body. eexists. unfold discover_headers. cbv zeta. cbn [u_path]. reflexivity.
Qed.
Print Assumptions C43_refuted.

Example C43_case :
  exists x, parse_url (bs "https://ofx.discovercard.com:8443/ofx/direct?a=b") = Some x /\ u_path x = bs "/ofx/direct" /\
    request_target (u_path x) /\ hostname x = bs "ofx.discovercard.com" /\ port x = bs "8443".
Proof.
  eexists. split; [vm_compute; reflexivity|]. cbn [u_path]. split; [reflexivity|].
  split; [|split; vm_compute; reflexivity]. split; [discriminate|].
  assert (H : forall c, In c (bs "/ofx/direct") -> negb (Ascii.eqb c (chr 13) || Ascii.eqb c (chr 10) || Ascii.eqb c (chr 32)) = true)
    by (apply forallb_forall; vm_compute; reflexivity).
  split; [split|]; intros Hc; apply H in Hc; discriminate.
Qed.

(** ** GetClient *)

(** C44 *)
Theorem C44_get_client : forall u bc,
  (get_client u bc = Discover bc <-> known_as discover_url u) /\
  (get_client u bc = Vanguard bc <-> known_as vanguard_url u) /\
  (get_client u bc = Basic bc <-> ~ known_as discover_url u /\ ~ known_as vanguard_url u).
Proof.
  intros u bc. destruct (get_client_cases u bc) as (H1 & H2 & H3).
  assert (Hd : {known_as discover_url u} + {~ known_as discover_url u}).
  { destruct (str_eqb discover_url (trim_char "/" u)) eqn:E; [left|right]; rewrite <- trim_char_known by (vm_compute; discriminate).
    - apply str_eqb_eq, E. - intros E'. apply str_eqb_eq in E'. congruence. }
  assert (Hv : {known_as vanguard_url u} + {~ known_as vanguard_url u}).
  { destruct (str_eqb vanguard_url (trim_char "/" u)) eqn:E; [left|right]; rewrite <- trim_char_known by (vm_compute; discriminate).
    - apply str_eqb_eq, E. - intros E'. apply str_eqb_eq in E'. congruence. }
  destruct Hd as [Hd|Hd]; [pose proof (H1 Hd) as E; rewrite E in H2, H3|
    destruct Hv as [Hv|Hv]; [pose proof (H2 Hv) as E|pose proof (H3 Hd Hv) as E]]; rewrite E;
    (split; [|split]); split; intros X; try discriminate; try tauto; try exact (H2 X); destruct X; contradiction.
Qed.
Print Assumptions C44_get_client.

Example C44_case : known_as discover_url (bs "https://ofx.discovercard.com//") /\ ~ known_as discover_url (bs "https://ofx.discovercard.com/x") /\
  known_as vanguard_url (bs "/https://vesnc.vanguard.com/us/OfxDirectConnectServlet").
Proof.
  repeat split; rewrite <- trim_char_known by (vm_compute; discriminate); vm_compute; [reflexivity|discriminate|reflexivity].
Qed.

(** ** Settings *)

(** C45: SetClientFields changes these fields and no others. *)
Theorem C45_fields : forall now c q, let q' := set_client_fields now c q in let bc := basic_of c in
  (known_version (bc_SpecVersion bc) -> rq_version q' = bc_SpecVersion bc) /\
  (~ known_version (bc_SpecVersion bc) -> rq_version q' = OfxVersion203) /\
  (bc_AppID bc <> [] -> SignonRequest_AppID (rq_signon q') = bc_AppID bc) /\
  (bc_AppID bc = [] -> SignonRequest_AppID (rq_signon q') = bs "OFXGO") /\
  (bc_AppVer bc <> [] -> SignonRequest_AppVer (rq_signon q') = bc_AppVer bc) /\
  (bc_AppVer bc = [] -> SignonRequest_AppVer (rq_signon q') = bs "0001") /\
  rq_indent q' = negb (bc_NoIndent bc) /\ rq_cr q' = bc_CarriageReturn bc /\
  SignonRequest_DtClient (rq_signon q') = now /\
  rq_url q' = rq_url q /\ rq_slots q' = rq_slots q /\
  SignonRequest_UserID (rq_signon q') = SignonRequest_UserID (rq_signon q) /\
  SignonRequest_UserPass (rq_signon q') = SignonRequest_UserPass (rq_signon q) /\
  SignonRequest_UserKey (rq_signon q') = SignonRequest_UserKey (rq_signon q) /\
  SignonRequest_GenUserKey (rq_signon q') = SignonRequest_GenUserKey (rq_signon q) /\
  SignonRequest_Language (rq_signon q') = SignonRequest_Language (rq_signon q) /\
  SignonRequest_Org (rq_signon q') = SignonRequest_Org (rq_signon q) /\
  SignonRequest_Fid (rq_signon q') = SignonRequest_Fid (rq_signon q) /\
  SignonRequest_ClientUID (rq_signon q') = SignonRequest_ClientUID (rq_signon q).
Proof.
  intros now c q. cbv zeta. unfold set_client_fields, client_version, client_id, client_appver, client_indent, client_cr.
  cbn [rq_version rq_signon rq_indent rq_cr rq_url rq_slots SignonRequest_AppID SignonRequest_AppVer SignonRequest_DtClient
    SignonRequest_UserID SignonRequest_UserPass SignonRequest_UserKey SignonRequest_GenUserKey SignonRequest_Language
    SignonRequest_Org SignonRequest_Fid SignonRequest_ClientUID].
  rewrite <- enum_version_known.
  destruct (enum_valid enum_ofxVersion (bc_SpecVersion (basic_of c))), (bc_AppID (basic_of c)), (bc_AppVer (basic_of c));
    repeat split; try congruence; intros H; exfalso; apply H; reflexivity.
Qed.
Print Assumptions C45_fields.

(** The defaults are a known version and names SignonRequest.Valid accepts. *)
Theorem C45_defaults : forall now c q, let q' := set_client_fields now c q in
  known_version (rq_version q') /\
  (bc_AppID (basic_of c) = [] -> bc_AppVer (basic_of c) = [] ->
   len_between 1 32 (SignonRequest_UserID (rq_signon q)) ->
   len_between 1 32 (SignonRequest_UserPass (rq_signon q)) -> SignonRequest_UserKey (rq_signon q) = [] ->
   SignonRequest_Language (rq_signon q) = [] ->
   snd (signon_request_valid (rq_signon q')) = None).
Proof.
  intros now c q. cbv zeta. split; [apply client_version_known|]. intros H1 H2 H3 H4 H5 H6. apply signon_valid_iff.
  unfold set_client_fields, client_id, client_appver. rewrite H1, H2. unfold signon_ok, len_between in *.
  cbn [rq_signon SignonRequest_AppID SignonRequest_AppVer SignonRequest_UserID SignonRequest_UserPass SignonRequest_UserKey SignonRequest_Language].
  rewrite H5, H6. cbn. split; [exact H3|]. split; [left; split; [intros E; rewrite E in H4; cbn in H4; lia|reflexivity]|].
  repeat split; try lia. left. reflexivity.
Qed.
Print Assumptions C45_defaults.

Example C45_case : snd (signon_request_valid (rq_signon (set_client_fields sample_date (Basic zero_basic) sample_request))) = None /\
  rq_version (set_client_fields sample_date (Basic zero_basic) sample_request) = OfxVersion203.
Proof. split; vm_compute; reflexivity. Qed.

(** ** Request *)

(** C46: a response if and only if the last answer has status 200 and a body that
    decodes to a valid response, which is the one returned; an error otherwise. *)
Theorem C46_request : forall w e c q tr r err q', runs (client_request w e c q) tr ((r, err), q') ->
  (exists r0 rp, r = Some r0 /\ err = None /\ last_answer tr = Some rp /\ rp_code rp = 200%Z /\
     decode_response e (rp_body rp) = Some r0 /\ response_valid r0 = None) \/
  (r = None /\ err <> None /\
   forall rp r0, last_answer tr = Some rp -> rp_code rp = 200%Z -> decode_response e (rp_body rp) = Some r0 -> response_valid r0 <> None).
Proof. exact request_result. Qed.
Print Assumptions C46_request.

(** If the request cannot be marshalled nothing is sent. *)
Theorem C46_marshal_error : forall w e c q tr r err q', runs (client_request w e c q) tr ((r, err), q') ->
  request_marshal (set_client_fields (w_now w) c q) = None -> tr = [] /\ r = None /\ err <> None.
Proof.
  intros w e c q tr r err q' H Hm. pose proof (request_result _ _ _ _ _ _ _ _ H) as Hres.
  apply client_request_runs in H as (o & H & _). apply no_parse_runs in H as [(_ & -> & _)|(b & tr1 & o1 & E & _)]; [|congruence].
  split; [reflexivity|]. destruct Hres as [(r0 & rp & _ & _ & Hl & _)|(-> & Hr & _)]; [discriminate|auto].
Qed.
Print Assumptions C46_marshal_error.

Example C46_case :
  (exists tr x, runs (client_request sample_world sample_env (Basic sample_basic) vanguard_request) tr x /\
     match fst x with (Some r, None) => (rs_version r =? rs_version sample_response)%N | _ => false end = true) /\
  (exists tr x, runs (client_request sample_world sample_env (Basic sample_basic) vanguard_request) tr x /\
     match fst x with (None, Some _) => true | _ => false end = true).
Proof.
  split.
  - apply (drive_case _ _ [RHttp (Some (answer 200 (-1) [] [] sample_body))]). vm_compute. reflexivity.
  - apply (drive_case _ _ [RHttp (Some (answer 500 (-1) [] [] sample_body))]). vm_compute. reflexivity.
Qed.

(** ** What is sent *)

(** C56: every body a client sends is the document of the request with the
    client's settings: it has the header of the client's version and is read as
    the request's tree. *)
Theorem C56_http : forall w c q tr o q', runs (request_no_parse w c q) tr (o, q') ->
  forall r a, In (EHttp r a) tr -> hr_body r = [] \/ client_document (w_now w) c q (hr_body r).
Proof. exact sent_documents. Qed.
Print Assumptions C56_http.

Theorem C56_discover : forall w bc q tr o q', runs (request_no_parse w (Discover bc) q) tr (o, q') ->
  tr = [] \/ exists host head body, client_document (w_now w) (Discover bc) q body /\
    ((tr = [EDial host false]) \/
     (exists ok ok', tr = [EDial host true; EWrite head ok; EWrite body ok'] \/
        exists a, tr = [EDial host true; EWrite head ok; EWrite body ok'; ERead a])).
Proof.
  intros w bc q tr o q' H. apply no_parse_runs in H as [(_ & -> & _)|(b & tr1 & o1 & Hm & H1 & Hc)]; [auto|].
  apply marshalled_document in Hm. destruct Hc as [(-> & _)|(bc' & rp & tr2 & E & _)]; [|discriminate].
  apply discover_history in H1 as [->|(x & _ & _ & Hc)]; [auto|]. cbv zeta in Hc. right.
  eexists _, (discover_headers x b), b. split; [exact Hm|].
  destruct Hc as [->|[[ok ->]|[ok [a ->]]]]; eauto 8.
Qed.
Print Assumptions C56_discover.

Example C56_case : exists tr x, runs (request_no_parse sample_world (Discover sample_basic) vanguard_request) tr x /\
  match tr with [EDial _ true; EWrite _ true; EWrite b true; ERead (Some _)] => has_prefix (bs "OFXHEADER:100") b | _ => false end = true.
Proof.
  apply (drive_case _ _ [ROk true; ROk true; ROk true; RHttp (Some (answer 200 0 [] [] []))]). vm_compute. reflexivity.
Qed.
