(** What is said about passwords: two runs of a program that differ in the
    password only. *)
From Coq Require Import QArith.
From Verif Require Import GoStr SpecStr GoNum GoTime Types Records Common Messages Codec Document SpecDocument Xml Wire Clients SpecClients Cli SpecCli.
Close Scope Q_scope.

(** A password the library accepts has 1 to 32 bytes. *)
Definition usable (p : str) : Prop := 1 <= length p <= 32.

(** The same request with another password. *)
Definition with_password (p : str) (q : Request) : Request :=
  let s := rq_signon q in
  mkRequest (rq_url q) (rq_version q)
    (mkSignonRequest (SignonRequest_DtClient s) (SignonRequest_UserID s) p (SignonRequest_UserKey s)
       (SignonRequest_GenUserKey s) (SignonRequest_Language s) (SignonRequest_Org s) (SignonRequest_Fid s)
       (SignonRequest_AppID s) (SignonRequest_AppVer s) (SignonRequest_ClientUID s))
    (rq_slots q) (rq_indent q) (rq_cr q).

(** The texts are equal, or one has [p] at a place where the other one has [p'].
    Characters with a meaning in XML are escaped. *)
Definition text_alike (p p' b b' : str) : Prop :=
  b = b' \/ exists pre suf, b = pre ++ escape p ++ suf /\ b' = pre ++ escape p' ++ suf.

(** HTTP requests that differ in their bodies only. *)
Definition same_head (r r' : http_request) : Prop :=
  hr_method r = hr_method r' /\ hr_url r = hr_url r' /\ hr_headers r = hr_headers r' /\ hr_cookies r = hr_cookies r'.

(** The header of a request written by hand tells the length of the body. *)
Definition length_alike (b b' : str) : Prop :=
  exists pre suf n n',
    b = pre ++ bs "Content-Length: " ++ fmt_d n ++ [chr 13; chr 10] ++ suf /\
    b' = pre ++ bs "Content-Length: " ++ fmt_d n' ++ [chr 13; chr 10] ++ suf.

(** The same operation with the same answer; what is sent may differ in the
    password. *)
Inductive sent_alike (p p' : str) : event -> event -> Prop :=
| sa_http r r' a : same_head r r' -> text_alike p p' (hr_body r) (hr_body r') -> sent_alike p p' (EHttp r a) (EHttp r' a)
| sa_dial h ok : sent_alike p p' (EDial h ok) (EDial h ok)
| sa_write b b' ok : text_alike p p' b b' \/ length_alike b b' -> sent_alike p p' (EWrite b ok) (EWrite b' ok)
| sa_read a : sent_alike p p' (ERead a) (ERead a).

(** The same, of everything the tool does: but for what is sent, the only
    difference is that the user enters [p'] instead of [p]. *)
Inductive done_alike (p p' : str) : io_event -> io_event -> Prop :=
| da_net x x' : sent_alike p p' x x' -> done_alike p p' (ENet x) (ENet x')
| da_prompt : done_alike p p' (EPrompt (Some p)) (EPrompt (Some p'))
| da_answer a : a <> Some p -> done_alike p p' (EPrompt a) (EPrompt a)
| da_same x : (forall y, x <> ENet y) -> (forall a, x <> EPrompt a) -> done_alike p p' x x.

(** The same flag, but for the password. *)
Definition flag_alike (p p' : str) (a b : str * str) : Prop :=
  a = b \/ a = (bs "password", p) /\ b = (bs "password", p').

(** What net/http sends on to the target of a redirection, and what the http.Client
    says about it, does not depend on the body. *)
Definition carries_alike (w : world) : Prop :=
  forall r r' target, same_head r r' -> w_carry w r target = w_carry w r' target.
Definition checks_alike (c : client) : Prop :=
  forall hc, bc_HTTPClient (basic_of c) = Some hc -> forall r r' l l', same_head r r' -> Forall2 same_head l l' ->
    hc_check hc r l = hc_check hc r' l'.
