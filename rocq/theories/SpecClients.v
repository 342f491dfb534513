(** What is said about clients: histories of network operations. *)
From Coq Require Import QArith.
From Verif Require Import GoStr SpecStr GoTime Types Records Common Codec Document SpecXml Wire Url Clients.
Close Scope Q_scope.

(** ** Histories *)

(** One network operation and its answer. *)
Inductive event :=
| EHttp (r : http_request) (a : option http_response)
| EDial (host : str) (ok : bool)
| EWrite (b : str) (ok : bool)
| ERead (a : option http_response).

(** [runs p tr x]: the program [p] can perform the operations [tr], in this order
    and with these answers, and then end with [x]. Every answer is possible at
    every point. *)
Inductive runs {A} : net A -> list event -> A -> Prop :=
| runs_done a : runs (Done a) [] a
| runs_http r k a tr x : runs (k a) tr x -> runs (Http r k) (EHttp r a :: tr) x
| runs_dial h k a tr x : runs (k a) tr x -> runs (Dial h k) (EDial h a :: tr) x
| runs_write b k a tr x : runs (k a) tr x -> runs (Write b k) (EWrite b a :: tr) x
| runs_read k a tr x : runs (k a) tr x -> runs (Read k) (ERead a :: tr) x.

(** ** URLs *)

Definition https (u : str) : Prop := exists r, u = bs "https://" ++ r.

Definition slashes (s : str) : Prop := Forall (fun c => c = chr 47) s.

(** [u] is [known] with slashes before and after it. *)
Definition known_as (known u : str) : Prop := exists a b, slashes a /\ slashes b /\ u = a ++ known ++ b.

Definition discover_url : str := bs "https://ofx.discovercard.com".
Definition vanguard_url : str := bs "https://vesnc.vanguard.com/us/OfxDirectConnectServlet".

(** ** Redirections *)

Definition redirects (rp : http_response) : Prop := In (rp_code rp) [301; 302; 303; 307; 308]%Z.

(** The answer [rp] to [r] sends the client on to [r']. Only 307 and 308 may have
    it send the body, [body], again. *)
Definition redirected (w : world) (body : str) (r : http_request) (rp : http_response) (r' : http_request) : Prop :=
  redirects rp /\ w_resolve w (hr_url r) (rp_location rp) = Some (hr_url r') /\ (hr_body r' = [] \/ In (rp_code rp) [307; 308]%Z /\ hr_body r' = body).

(** One request and those it is redirected to; the last answer. *)
Inductive round (w : world) (body : str) : http_request -> list event -> option http_response -> Prop :=
| round_last r a : round w body r [EHttp r a] a
| round_next r rp r' tr a :
    redirected w body r rp r' -> round w body r' tr a -> round w body r (EHttp r (Some rp) :: tr) a.

(** The first request of a round. *)
Definition first_post (u : str) (cookies : list cookie) (body : str) (r : http_request) : Prop :=
  hr_method r = bs "POST" /\ hr_url r = u /\ hr_cookies r = cookies /\ hr_body r = body /\
  In (bs "Content-Type", bs "application/x-ofx") (hr_headers r).

(** The last answer of a history. *)
Definition answer_of (x : event) : option http_response :=
  match x with EHttp _ a | ERead a => a | _ => None end.

Definition last_answer (tr : list event) : option http_response := answer_of (last tr (ERead None)).

(** [b] is the document of the request [q] with the settings of the client. *)
Definition client_document (now : gotime) (c : client) (q : Request) (b : str) : Prop :=
  exists t q' t' n, request_tree (set_client_fields now c q) = Some (t, q') /\ repaired_tree t t' /\
    read_document b = Some (client_version c, n) /\ same_tree t' n.

(** ** HTTP messages *)

Definition one_line (s : str) : Prop := ~ In (chr 13) s /\ ~ In (chr 10) s.

(** The bytes of a request with these headers, in this order (RFC 7230, section
    3). *)
Definition header_line (h : str * str) : str := fst h ++ bs ": " ++ snd h ++ [chr 13; chr 10].

Definition request_target (s : str) : Prop := s <> [] /\ one_line s /\ ~ In (chr 32) s.

Definition http_message (target : str) (headers : list (str * str)) (body bytes : str) : Prop :=
  request_target target /\ Forall (fun h => one_line (fst h) /\ one_line (snd h)) headers /\
  bytes = bs "POST " ++ target ++ bs " HTTP/1.1" ++ [chr 13; chr 10] ++
          concat (map header_line headers) ++ [chr 13; chr 10] ++ body.
