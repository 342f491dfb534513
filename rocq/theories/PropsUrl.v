(** C87: which URLs requests can be sent to, and where they go. *)
From Coq Require Import QArith Lia.
From Verif Require Import GoStr SpecStr GoNum SpecNum Types Records Common Codec Document Wire Url SpecUrl Clients SpecClients ClientFacts UrlFacts.
Close Scope Q_scope.

(** An http.Client always sends the first request it is given. *)
Definition sends_first (c : client) : Prop := forall bc hc, c = Basic bc -> bc_HTTPClient bc = Some hc -> hc_limit hc <> 0.

(** Something is sent exactly for the URLs that name a server. *)
Theorem C87_accepted : forall w c u body rw tr o, https u -> sends_first c -> runs (raw_request w c u body rw) tr o ->
  (tr <> [] <-> exists host path, names u host path).
Proof. intros w c u body rw tr o Hu Hs H. rewrite <- (parse_url_iff _ Hu). eapply raw_accepts; eassumption. Qed.
Print Assumptions C87_accepted.

(** All other URLs are an error. *)
Theorem C87_rejected : forall w c u body rw tr o, https u -> ~ (exists host path, names u host path) ->
  runs (raw_request w c u body rw) tr o -> tr = [] /\ fst o = None /\ snd o <> None.
Proof. exact raw_rejects. Qed.
Print Assumptions C87_rejected.

(** A URL names one server and one path. *)
Theorem C87_unique : forall u h1 p1 h2 p2, names u h1 p1 -> names u h2 p2 -> h1 = h2 /\ p1 = p2.
Proof. exact names_unique. Qed.
Print Assumptions C87_unique.

(** The Discover client connects to that server, at its port or else at 443, and
    asks for that path. *)
Theorem C87_discover : forall w bc u body rw tr o host path, names u host path -> runs (raw_request w (Discover bc) u body rw) tr o ->
  exists a n ok rest, address host a /\ server_name host n /\ tr = EDial a ok :: rest /\
    (rest = [] \/ exists len ok1 rest', digits len (Z.of_nat (length body)) /\ len <> [] /\ rest = EWrite
       (bs "POST " ++ match path with [] => bs "/" | _ => path end ++ bs " HTTP/1.1" ++ [chr 13; chr 10] ++
        concat (map header_line [(bs "Content-Type", bs "application/x-ofx"); (bs "Host", n); (bs "Content-Length", len); (bs "Connection", bs "Keep-Alive")]) ++
        [chr 13; chr 10]) ok1 :: rest').
Proof. exact discover_goes. Qed.
Print Assumptions C87_discover.

Theorem C87_address : forall host a b n m,
  (address host a -> address host b -> a = b) /\ (server_name host n -> server_name host m -> n = m).
Proof. intros host a b n m. split; [apply address_unique|apply server_name_unique]. Qed.
Print Assumptions C87_address.

(** Ordinary URLs are accepted: any name of letters, digits, hyphens and dots, and
    any path without percent signs, question marks, hashes and controls. *)
Theorem C87_ordinary : forall host path,
  Forall (fun c => In c (letters ++ figures ++ bs "-.")) host -> starts "/" path ->
  Forall (fun c => ~ control c /\ ~ In c (bs "%?#")) path ->
  names (bs "https://" ++ host ++ path) host path.
Proof. exact ordinary_names. Qed.
Print Assumptions C87_ordinary.

Example C87_names_case : names (bs "https://me:secret@[fe80::1%25en0]:8443/a%20b?c=d#e") (bs "[fe80::1%en0]:8443") (bs "/a b").
Proof.
  assert (Hu : https (bs "https://me:secret@[fe80::1%25en0]:8443/a%20b?c=d#e")) by (eexists; reflexivity).
  exact (parse_url_names _ (mkUrl (bs "[fe80::1%en0]:8443") (bs "/a b") (bs "c=d")) Hu eq_refl).
Qed.

Example C87_address_case : address (bs "[fe80::1%en0]:8443") (bs "[fe80::1%en0]:8443") /\ server_name (bs "[fe80::1%en0]:8443") (bs "fe80::1%en0") /\
  address (bs "ofx.discovercard.com") (bs "ofx.discovercard.com:443").
Proof.
  split; [exact (address_of (mkUrl (bs "[fe80::1%en0]:8443") [] []))|].
  split; [exact (server_name_of (mkUrl (bs "[fe80::1%en0]:8443") [] []))|exact (address_of (mkUrl (bs "ofx.discovercard.com") [] []))].
Qed.

Example C87_rejected_case : ~ (exists host path, names (bs "https://bank.example.com:http/") host path) /\
  ~ (exists host path, names (bs "https://bank example.com/") host path) /\ ~ (exists host path, names (bs "https://bank.example.com/%zz") host path).
Proof. repeat split; intros H; apply parse_url_iff in H; try (eexists; reflexivity); apply H; reflexivity. Qed.

(** With an empty port, which RFC 3986 allows, the address has two colons. *)
Example C87_empty_port : names (bs "https://ofx.discovercard.com:/") (bs "ofx.discovercard.com:") (bs "/") /\
  address (bs "ofx.discovercard.com:") (bs "ofx.discovercard.com::443").
Proof.
  split; [|exact (address_of (mkUrl (bs "ofx.discovercard.com:") [] []))].
  assert (Hu : https (bs "https://ofx.discovercard.com:/")) by (eexists; reflexivity).
  exact (parse_url_names _ (mkUrl (bs "ofx.discovercard.com:") (bs "/") []) Hu eq_refl).
Qed.
