(** The clients again, with the bodies of answers: each answer net/http hands to /repo
    has a body that is open until /repo closes it. The bodies of answers that net/http
    redirects are closed by net/http. *)
From Coq Require Import ZArith.
From Verif Require Import GoStr Types Codec Document Wire Marshal Url Clients.

Inductive life (A : Type) : Type :=
| Over (a : A)
| Receive (p : net (option http_response)) (k : option http_response -> life A)
| Close (n : nat) (k : life A).      (* response.Body.Close(), of the [n]th answer *)
Arguments Over {A} a.
Arguments Receive {A} p k.
Arguments Close {A} n k.

Fixpoint then_life {A B} (p : life A) (f : A -> life B) : life B :=
  match p with
  | Over a => f a
  | Receive p k => Receive p (fun x => then_life (k x) f)
  | Close n k => Close n (then_life k f)
  end.

(** A *http.Response, with the number of its body, and an error. *)
Definition held := (option (nat * http_response) * option goerr)%type.

(** BasicClient.RawRequest, basic_client.go:69-98. *)
Definition basic_life (w : world) (bc : BasicClient) (u body : str) (rewind : bool) (n : nat) : life held :=
  if negb (has_prefix (bs "https://") u) then Over (None, Some refused)
  else match parse_url u with
  | None => Over (None, Some url_error)
  | Some _ =>
      let hc := match bc_HTTPClient bc with Some hc => hc | None => default_client end in
      Receive (http_do w hc rewind
        (mkHttpRequest (bs "POST") u
           ([(bs "Content-Type", bs "application/x-ofx"); (bs "Accept", bs "*/*, application/x-ofx")] ++ user_agent bc)
           [] body))
        (fun a => match a with
         | None => Over (None, Some network_error)
         | Some rp => Over (Some (n, rp), if Z.eqb (rp_code rp) 200 then None else Some (status_error rp))
         end)
  end.

(** VanguardClient.RawRequest, vanguard_client.go:52-77. *)
Definition vanguard_life (w : world) (bc : BasicClient) (u body : str) (rewind : bool) (n : nat) : life held :=
  if negb (has_prefix (bs "https://") u) then Over (None, Some refused)
  else match parse_url u with
  | None => Over (None, Some url_error)
  | Some _ =>
      Receive (http_do w default_client rewind
        (mkHttpRequest (bs "POST") u ([(bs "Content-Type", bs "application/x-ofx")] ++ user_agent bc) [] body))
        (fun a => match a with
         | None => Over (None, Some network_error)
         | Some rp => Over (Some (n, rp), if Z.eqb (rp_code rp) 200 then None else Some (status_error rp))
         end)
  end.

(** rawRequestCookiesInsecureCiphers, vanguard_client.go:82-107. *)
Definition cookies_life (w : world) (u body : str) (rewind : bool) (cookies : list cookie) (n : nat) : life held :=
  if negb (has_prefix (bs "https://") u) then Over (None, Some refused)
  else match parse_url u with
  | None => Over (None, Some url_error)
  | Some _ =>
      Receive (http_do w default_client rewind
        (mkHttpRequest (bs "POST") u [(bs "Content-Type", bs "application/x-ofx")] cookies body))
        (fun a => match a with
         | None => Over (None, Some network_error)
         | Some rp => if Z.eqb (rp_code rp) 200 then Over (Some (n, rp), None) else Over (None, Some (status_error rp))
         end)
  end.

(** DiscoverCardClient.RawRequest, discovercard_client.go:83-98. The connection stays
    open as long as the body (lines 66-67). *)
Definition discover_life (u body : str) (n : nat) : life held :=
  if negb (has_prefix (bs "https://") u) then Over (None, Some refused)
  else
    Receive (discover_post u body)
      (fun a => match a with
       | None => Over (None, Some network_error)
       | Some rp => if Z.eqb (rp_code rp) 200 then Over (Some (n, rp), None) else Over (None, Some (status_error rp))
       end).

Definition raw_life (w : world) (c : client) (u body : str) (rewind : bool) (n : nat) : life held :=
  match c with
  | Basic bc => basic_life w bc u body rewind n
  | Vanguard bc => vanguard_life w bc u body rewind n
  | Discover _ => discover_life u body n
  end.

(** clientRequestNoParse, client.go:83-92, and VanguardClient.RequestNoParse,
    vanguard_client.go:111-136. *)
Definition no_parse_life (w : world) (c : client) (q : Request) : life (held * Request) :=
  let q1 := set_client_fields (w_now w) c q in
  match request_marshal q1 with
  | None => Over ((None, Some (marshal_failure q1)), request_after q1)
  | Some (b, q2) =>
      then_life (raw_life w c (rq_url q2) b true 0) (fun o =>
        match c, fst o with
        | Vanguard _, Some (_, rp) =>
            if (rp_length rp <=? 0)%Z && negb (match rp_cookies rp with [] => true | _ => false end) then
              match request_marshal q2 with
              | None => Over ((None, Some (marshal_failure q2)), request_after q2)
              | Some (b', q3) => then_life (cookies_life w (rq_url q3) b' true (rp_cookies rp) 1) (fun o' => Over (o', q3))
              end
            else Over (o, q2)
        | _, _ => Over (o, q2)
        end)
  end.

(** clientRequest, client.go:96-108. The deferred Close at line 101 comes after
    ParseResponse. *)
Definition request_life (w : world) (e : env) (c : client) (q : Request) : life ((option Response * option goerr) * Request) :=
  then_life (no_parse_life w c q) (fun x =>
    match fst x with
    | (_, Some err) => Over ((None, Some err), snd x)
    | (None, None) => Over ((None, None), snd x)
    | (Some (n, rp), None) =>
        let r := match parse_response e (rp_body rp) with
                 | (_, Some err) => (None, Some err)
                 | (r, None) => (r, None)
                 end in
        Close n (Over (r, snd x))
    end).
