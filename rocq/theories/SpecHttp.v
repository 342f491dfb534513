(** What is said about HTTP: the requests of the clients, the redirections that are
    followed, and what is made of the last answer. *)
From Coq Require Import QArith.
From Verif Require Import GoStr SpecStr GoTime Types Records Common Codec Document Document Wire Url Clients SpecClients.
Close Scope Q_scope.

(** ** The first request *)

Definition agent_header (agent : str) (l : list (str * str)) : Prop :=
  agent = [] /\ l = [] \/ agent <> [] /\ l = [(bs "User-Agent", agent)].

(** A POST of [body] to [u]. *)
Definition post (u : str) (headers : list (str * str)) (cookies : list cookie) (body : str) : http_request :=
  mkHttpRequest (bs "POST") u headers cookies body.

(** The first request of a call of RawRequest. *)
Inductive first_request : client -> str -> str -> http_request -> Prop :=
| fr_basic bc u body l : agent_header (bc_UserAgent bc) l ->
    first_request (Basic bc) u body
      (post u ([(bs "Content-Type", bs "application/x-ofx"); (bs "Accept", bs "*/*, application/x-ofx")] ++ l) [] body)
| fr_vanguard bc u body l : agent_header (bc_UserAgent bc) l ->
    first_request (Vanguard bc) u body (post u ([(bs "Content-Type", bs "application/x-ofx")] ++ l) [] body).

(** The http.Client a client uses: its own, or Go's default, which allows ten
    requests in a row. *)
Inductive http_client_of : client -> http_client -> Prop :=
| hc_own bc hc : bc_HTTPClient bc = Some hc -> http_client_of (Basic bc) hc
| hc_default bc : bc_HTTPClient bc = None -> http_client_of (Basic bc) default_client
| hc_vanguard bc : http_client_of (Vanguard bc) default_client.

(** ** Redirections *)

(** The answer is a redirection. After 307 and 308 the body has to be sent again,
    which is done only if there is a location and the body can be read again. *)
Definition moved (again : bool) (rp : http_response) : Prop :=
  In (rp_code rp) [301; 302; 303]%Z \/
  In (rp_code rp) [307; 308]%Z /\ rp_location rp <> [] /\ again = true.

(** The request after the redirection [rp] of [r], where [first] was the first
    request. *)
Definition onward (w : world) (first r : http_request) (rp : http_response) (r' : http_request) : Prop :=
  w_resolve w (hr_url r) (rp_location rp) = Some (hr_url r') /\
  (In (rp_code rp) [301; 302; 303]%Z /\ hr_method r' = bs "GET" /\ hr_body r' = [] \/
   In (rp_code rp) [307; 308]%Z /\ hr_method r' = hr_method r /\ hr_body r' = hr_body first) /\
  (hr_headers r', hr_cookies r') = w_carry w first (hr_url r').

(** [followed w hc again first sent r tr a]: after the requests [sent], the latest
    first, the request [r] is sent; the history is [tr] and [a] the answer that is
    returned. *)
Inductive followed (w : world) (hc : http_client) (again : bool) (first : http_request) :
    list http_request -> http_request -> list event -> option http_response -> Prop :=
| fo_failed sent r : followed w hc again first sent r [EHttp r None] None
| fo_answered sent r rp : ~ moved again rp -> followed w hc again first sent r [EHttp r (Some rp)] (Some rp)
| fo_nowhere sent r rp : moved again rp ->
    (rp_location rp = [] \/ w_resolve w (hr_url r) (rp_location rp) = None) ->
    followed w hc again first sent r [EHttp r (Some rp)] None
| fo_kept sent r rp r' : moved again rp -> rp_location rp <> [] -> onward w first r rp r' ->
    hc_check hc r' (r :: sent) = None ->
    followed w hc again first sent r [EHttp r (Some rp)] (Some rp)
| fo_forbidden sent r rp r' : moved again rp -> rp_location rp <> [] -> onward w first r rp r' ->
    hc_check hc r' (r :: sent) = Some false ->
    followed w hc again first sent r [EHttp r (Some rp)] None
| fo_limit sent r rp r' : moved again rp -> rp_location rp <> [] -> onward w first r rp r' ->
    hc_check hc r' (r :: sent) = Some true -> hc_limit hc <= length (r :: sent) ->
    followed w hc again first sent r [EHttp r (Some rp)] None
| fo_next sent r rp r' tr a : moved again rp -> rp_location rp <> [] -> onward w first r rp r' ->
    hc_check hc r' (r :: sent) = Some true -> length (r :: sent) < hc_limit hc ->
    followed w hc again first (r :: sent) r' tr a ->
    followed w hc again first sent r (EHttp r (Some rp) :: tr) a.

(** ** The result *)

Definition status_text (rp : http_response) : goerr := EPlain (bs "OFXQuery request status: " ++ rp_status rp).

(** What is returned for the answer [a]. [keep]: a response with another status
    than 200 is returned beside the error. *)
Inductive returned (keep : bool) : option http_response -> outcome -> Prop :=
| re_ok rp : rp_code rp = 200%Z -> returned keep (Some rp) (Some rp, None)
| re_status rp : rp_code rp <> 200%Z -> returned keep (Some rp) (if keep then Some rp else None, Some (status_text rp))
| re_failed err : returned keep None (None, Some err).

(** An answer for which Vanguard's client asks again. *)
Definition retried (rp : http_response) : Prop := (rp_length rp <= 0)%Z /\ rp_cookies rp <> [].
