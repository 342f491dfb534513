(** Model of /repo/client.go, basic_client.go, vanguard_client.go and
    discovercard_client.go, and of Request.SetClientFields (request.go:64-75).

    Programs that use the network are trees: every operation has a continuation
    for each answer the network may give. *)
From Coq Require Import QArith.
From Verif Require Import GoStr GoNum GoTime Types Enums EnumTables Records Common Messages Codec Schema
  Document Wire Marshal Url.
Close Scope Q_scope.

(** ** Network operations *)

(** A cookie as it is received and sent: name and value. Attributes and the
    cleaning of names and values that net/http does are not modelled. *)
Definition cookie := (str * str)%type.

Record http_request := mkHttpRequest {
  hr_method : str;
  hr_url : str;
  hr_headers : list (str * str);
  hr_cookies : list cookie;
  hr_body : str
}.

(** The parts of http.Response that are looked at. The body is what reading it
    delivers; an error while reading is not distinguished from its end. *)
Record http_response := mkHttpResponse {
  rp_code : Z;              (* StatusCode *)
  rp_status : str;          (* Status *)
  rp_length : Z;            (* ContentLength, -1 if not known *)
  rp_cookies : list cookie; (* Cookies() *)
  rp_location : str;        (* the Location header, empty if absent *)
  rp_body : str
}.

(** A program with results of type [A]. [Http]: one HTTP exchange, answered by a
    response or, [None], an error. [Dial]: tls.Dial, answered by whether it
    succeeds. [Write]: writing to the connection; a failed write may have written
    a part, which is not distinguished. [Read]: http.ReadResponse. *)
Inductive net (A : Type) : Type :=
| Done (a : A)
| Http (r : http_request) (k : option http_response -> net A)
| Dial (host : str) (k : bool -> net A)
| Write (b : str) (k : bool -> net A)
| Read (k : option http_response -> net A).
Arguments Done {A} a.
Arguments Http {A} r k.
Arguments Dial {A} host k.
Arguments Write {A} b k.
Arguments Read {A} k.

Fixpoint andthen {A B} (p : net A) (f : A -> net B) : net B :=
  match p with
  | Done a => f a
  | Http r k => Http r (fun x => andthen (k x) f)
  | Dial h k => Dial h (fun x => andthen (k x) f)
  | Write b k => Write b (fun x => andthen (k x) f)
  | Read k => Read (fun x => andthen (k x) f)
  end.

(** What is taken from the world: the current time; [w_resolve base loc],
    URL.Parse, the location [loc] of an answer to a request to [base]; and
    [w_carry r loc], the headers and cookies net/http sends with a redirected
    request ([r] is the first one). *)
Record world := mkWorld {
  w_now : gotime;
  w_resolve : str -> str -> option str;
  w_carry : http_request -> str -> list (str * str) * list cookie
}.

(** ** http.Client.Do *)

(** redirectBehavior, net/http client.go (Go 1.15): whether to follow, the method
    and whether the body is sent again. [rewind]: the body can be read again
    (GetBody), which is the case for *bytes.Buffer. *)
Definition redirect (method : str) (rewind : bool) (rp : http_response) : option (str * bool) :=
  if existsb (Z.eqb (rp_code rp)) [301; 302; 303]%Z then
    Some (if str_eqb method (bs "GET") || str_eqb method (bs "HEAD") then method else bs "GET", false)
  else if existsb (Z.eqb (rp_code rp)) [307; 308]%Z then
    if match rp_location rp with [] => true | _ => false end then None
    else if negb rewind then None
    else Some (method, true)
  else None.

(** http.Client, as far as it matters: how many requests it sends at most for one
    (an http.Client without CheckRedirect stops after 10), and CheckRedirect. The
    verdict [None] is ErrUseLastResponse, [Some false] any other error. *)
Record http_client := mkHttpClient {
  hc_limit : nat;
  hc_check : http_request -> list http_request -> option bool
}.

Definition default_client : http_client := mkHttpClient 10 (fun _ _ => Some true).

(** Client.do, net/http client.go (Go 1.15): [first] is the first request, [sent]
    the requests sent before [r], the last one first. [None] is an error; the
    response that comes with some errors is dropped by all callers. *)
Fixpoint do_http (w : world) (hc : http_client) (rewind : bool) (fuel : nat)
    (first : http_request) (sent : list http_request) (r : http_request) : net (option http_response) :=
  match fuel with
  | O => Done None
  | S fuel' =>
      Http r (fun a =>
        match a with
        | None => Done None
        | Some rp =>
            match redirect (hr_method r) rewind rp with
            | None => Done (Some rp)
            | Some (method, again) =>
                match rp_location rp with
                | [] => Done None
                | loc =>
                    match w_resolve w (hr_url r) loc with
                    | None => Done None
                    | Some target =>
                        let h := w_carry w first target in
                        let next := mkHttpRequest method target (fst h) (snd h) (if again then hr_body first else []) in
                        match hc_check hc next (r :: sent) with
                        | None => Done (Some rp)
                        | Some false => Done None
                        | Some true => do_http w hc rewind fuel' first (r :: sent) next
                        end
                    end
                end
            end
        end)
  end.

Definition http_do (w : world) (hc : http_client) (rewind : bool) (r : http_request) : net (option http_response) :=
  do_http w hc rewind (hc_limit hc) r [] r.

(** ** Clients *)

(** basic_client.go:13-29. HTTPClient nil is [None]. *)
Record BasicClient := mkBasicClient {
  bc_SpecVersion : N;
  bc_AppID : str;
  bc_AppVer : str;
  bc_NoIndent : bool;
  bc_CarriageReturn : bool;
  bc_UserAgent : str;
  bc_HTTPClient : option http_client
}.

(** The implementations of the interface Client, client.go:13-57. *)
Inductive client :=
| Basic (c : BasicClient)
| Vanguard (c : BasicClient)      (* vanguard_client.go:15-17 *)
| Discover (c : BasicClient).     (* discovercard_client.go:17-19 *)

(** The embedded BasicClient, to which the methods below are promoted. *)
Definition basic_of (c : client) : BasicClient :=
  match c with Basic b | Vanguard b | Discover b => b end.

(** basic_client.go:33-38, 42-47, 51-56, 60-62 and 65-67. *)
Definition client_version (c : client) : N :=
  if enum_valid enum_ofxVersion (bc_SpecVersion (basic_of c)) then bc_SpecVersion (basic_of c) else OfxVersion203.

Definition client_id (c : client) : str :=
  match bc_AppID (basic_of c) with [] => bs "OFXGO" | s => s end.

Definition client_appver (c : client) : str :=
  match bc_AppVer (basic_of c) with [] => bs "0001" | s => s end.

Definition client_indent (c : client) : bool := negb (bc_NoIndent (basic_of c)).

Definition client_cr (c : client) : bool := bc_CarriageReturn (basic_of c).

(** GetClient, client.go:59-79. *)
Definition get_client (u : str) (bc : BasicClient) : client :=
  if str_eqb (bs "https://ofx.discovercard.com") (trim_char "/" u) then Discover bc
  else if str_eqb (bs "https://vesnc.vanguard.com/us/OfxDirectConnectServlet") (trim_char "/" u) then Vanguard bc
  else Basic bc.

(** Request.SetClientFields, request.go:64-75. *)
Definition set_client_fields (now : gotime) (c : client) (q : Request) : Request :=
  let s := rq_signon q in
  mkRequest (rq_url q) (client_version c)
    (mkSignonRequest now (SignonRequest_UserID s) (SignonRequest_UserPass s) (SignonRequest_UserKey s)
       (SignonRequest_GenUserKey s) (SignonRequest_Language s) (SignonRequest_Org s) (SignonRequest_Fid s)
       (client_id c) (client_appver c) (SignonRequest_ClientUID s))
    (rq_slots q) (client_indent c) (client_cr c).

(** ** Sending *)

(** The pair of a *http.Response and an error that the methods return. *)
Definition outcome := (option http_response * option goerr)%type.

Definition refused : goerr :=
  EPlain (bs "Refusing to send OFX request with possible plain-text password over non-https protocol").
Definition url_error : goerr := EPlain (bs "parse").
Definition network_error : goerr := EPlain (bs "network").
Definition status_error (rp : http_response) : goerr := EPlain (bs "OFXQuery request status: " ++ rp_status rp).

Definition user_agent (bc : BasicClient) : list (str * str) :=
  match bc_UserAgent bc with [] => [] | s => [(bs "User-Agent", s)] end.

(** BasicClient.RawRequest, basic_client.go:69-98. *)
Definition basic_raw (w : world) (bc : BasicClient) (u : str) (body : str) (rewind : bool) : net outcome :=
  if negb (has_prefix (bs "https://") u) then Done (None, Some refused)
  else match parse_url u with
  | None => Done (None, Some url_error)
  | Some _ =>
      let hc := match bc_HTTPClient bc with Some hc => hc | None => default_client end in
      andthen (http_do w hc rewind
        (mkHttpRequest (bs "POST") u
           ([(bs "Content-Type", bs "application/x-ofx"); (bs "Accept", bs "*/*, application/x-ofx")] ++ user_agent bc)
           [] body))
        (fun a => match a with
         | None => Done (None, Some network_error)
         | Some rp => Done (Some rp, if Z.eqb (rp_code rp) 200 then None else Some (status_error rp))
         end)
  end.

(** VanguardClient.RawRequest, vanguard_client.go:52-77. The http.Client differs
    from the default one in its ciphers only. *)
Definition vanguard_raw (w : world) (bc : BasicClient) (u : str) (body : str) (rewind : bool) : net outcome :=
  if negb (has_prefix (bs "https://") u) then Done (None, Some refused)
  else match parse_url u with
  | None => Done (None, Some url_error)
  | Some _ =>
      andthen (http_do w default_client rewind
        (mkHttpRequest (bs "POST") u ([(bs "Content-Type", bs "application/x-ofx")] ++ user_agent bc) [] body))
        (fun a => match a with
         | None => Done (None, Some network_error)
         | Some rp => Done (Some rp, if Z.eqb (rp_code rp) 200 then None else Some (status_error rp))
         end)
  end.

(** rawRequestCookiesInsecureCiphers, vanguard_client.go:82-107. *)
Definition cookies_raw (w : world) (u : str) (body : str) (rewind : bool) (cookies : list cookie) : net outcome :=
  if negb (has_prefix (bs "https://") u) then Done (None, Some refused)
  else match parse_url u with
  | None => Done (None, Some url_error)
  | Some _ =>
      andthen (http_do w default_client rewind
        (mkHttpRequest (bs "POST") u [(bs "Content-Type", bs "application/x-ofx")] cookies body))
        (fun a => match a with
         | None => Done (None, Some network_error)
         | Some rp => if Z.eqb (rp_code rp) 200 then Done (Some rp, None) else Done (None, Some (status_error rp))
         end)
  end.

Definition crlf : str := [chr 13; chr 10].

(** The headers of discoverCardHTTPPost, discovercard_client.go:50-59. *)
Definition discover_headers (u : url) (body : str) : str :=
  let path := match u_path u with [] => bs "/" | p => p end in
  bs "POST " ++ path ++ bs " HTTP/1.1" ++ crlf ++
  bs "Content-Type: application/x-ofx" ++ crlf ++
  bs "Host: " ++ hostname u ++ crlf ++
  bs "Content-Length: " ++ fmt_d (Z.of_nat (length body)) ++ crlf ++
  bs "Connection: Keep-Alive" ++ crlf ++
  crlf.

(** discoverCardHTTPPost, discovercard_client.go:27-79. The error of the first
    write is ignored (line 72). *)
Definition discover_post (u : str) (body : str) : net (option http_response) :=
  match parse_url u with
  | None => Done None
  | Some x =>
      let host := match port x with [] => u_host x ++ bs ":443" | _ => u_host x end in
      Dial host (fun ok =>
        if negb ok then Done None
        else Write (discover_headers x body) (fun _ =>
             Write body (fun ok =>
               if negb ok then Done None else Read (fun a => Done a))))
  end.

(** DiscoverCardClient.RawRequest, discovercard_client.go:83-98. *)
Definition discover_raw (u : str) (body : str) : net outcome :=
  if negb (has_prefix (bs "https://") u) then Done (None, Some refused)
  else
    andthen (discover_post u body)
      (fun a => match a with
       | None => Done (None, Some network_error)
       | Some rp => if Z.eqb (rp_code rp) 200 then Done (Some rp, None) else Done (None, Some (status_error rp))
       end).

(** Client.RawRequest; [rewind] says whether the reader is one net/http can read
    again. *)
Definition raw_request (w : world) (c : client) (u : str) (body : str) (rewind : bool) : net outcome :=
  match c with
  | Basic bc => basic_raw w bc u body rewind
  | Vanguard bc => vanguard_raw w bc u body rewind
  | Discover _ => discover_raw u body
  end.

(** Client.RequestNoParse: clientRequestNoParse (client.go:83-92) and
    VanguardClient.RequestNoParse (vanguard_client.go:111-136). Also returns the
    request as it is after the call. *)
Definition request_no_parse (w : world) (c : client) (q : Request) : net (outcome * Request) :=
  let q1 := set_client_fields (w_now w) c q in
  match request_marshal q1 with
  | None => Done ((None, Some (marshal_failure q1)), request_after q1)
  | Some (b, q2) =>
      andthen (raw_request w c (rq_url q2) b true) (fun o =>
        match c, fst o with
        | Vanguard _, Some rp =>
            if (rp_length rp <=? 0)%Z && negb (match rp_cookies rp with [] => true | _ => false end) then
              match request_marshal q2 with
              | None => Done ((None, Some (marshal_failure q2)), request_after q2)
              | Some (b', q3) => andthen (cookies_raw w (rq_url q3) b' true (rp_cookies rp)) (fun o' => Done (o', q3))
              end
            else Done (o, q2)
        | _, _ => Done (o, q2)
        end)
  end.

(** Client.Request: clientRequest, client.go:96-108. *)
Definition client_request (w : world) (e : env) (c : client) (q : Request) :
    net ((option Response * option goerr) * Request) :=
  andthen (request_no_parse w c q) (fun x =>
    Done (match fst x with
          | (_, Some err) => (None, Some err)
          | (None, None) => (None, None)        (* response.Body would be a nil dereference *)
          | (Some rp, None) =>
              match parse_response e (rp_body rp) with
              | (_, Some err) => (None, Some err)
              | (r, None) => (r, None)
              end
          end, snd x)).
