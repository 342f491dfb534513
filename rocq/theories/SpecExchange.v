(** A server that computes its answers from what requests say (C78). *)
From Coq Require Import QArith.
From Verif Require Import GoStr GoTime Types Records Common Messages Codec Schema Document Xml Headers Wire Clients
  SpecClients SpecReading.
Close Scope Q_scope.

(** The bytes are a document that says this sign-on and these messages. *)
Definition document_says (e : env) (b : str) (signon : SignonRequest) (messages : Slots) : Prop :=
  exists version n, read_document b = Some (version, n) /\ request_says e n signon messages.

(** The answer of a server that computes the response [f signon messages] from
    what the document [b] says, and sends what Response.Marshal makes of it. It may
    send something after it. *)
Definition serves (e : env) (f : SignonRequest -> Slots -> Response) (b : str) (rp : http_response) : Prop :=
  rp_code rp = 200%Z /\
  forall signon messages, document_says e b signon messages ->
    exists s rest, response_marshal (f signon messages) = Some s /\ rp_body rp = s ++ rest.

(** The last message of the history, which is not empty, has been answered by such
    a server. *)
Definition answered_by (e : env) (f : SignonRequest -> Slots -> Response) (tr : list event) : Prop :=
  (exists l r rp, tr = l ++ [EHttp r (Some rp)] /\ hr_body r <> [] /\ serves e f (hr_body r) rp) \/
  (exists l h ok b ok' rp, tr = l ++ [EWrite h ok; EWrite b ok'; ERead (Some rp)] /\ serves e f b rp).
