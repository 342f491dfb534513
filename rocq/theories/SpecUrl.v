(** What is said about URLs: the URLs that start with https:// and can be used,
    with the server and the path they name (RFC 3986, RFC 6874 and what net/url
    allows besides). *)
From Verif Require Import GoStr.

Definition letters : str := bs "ABCDEFGHIJKLMNOPQRSTUVWXYZabcdefghijklmnopqrstuvwxyz".
Definition figures : str := bs "0123456789".

(** [c] is the hexadecimal digit with the value [v]. *)
Definition hex_digit (c : ascii) (v : nat) : Prop :=
  nth_error (bs "0123456789abcdef") v = Some c \/ nth_error (bs "0123456789ABCDEF") v = Some c.

(** [s] is a text with percent-encoded bytes, and stands for [t]. The bytes that
    are not encoded are [plain], the encoded ones [coded]. *)
Inductive escaped (plain coded : ascii -> Prop) : str -> str -> Prop :=
| esc_end : escaped plain coded [] []
| esc_plain : forall c s t, c <> "%"%char -> plain c -> escaped plain coded s t -> escaped plain coded (c :: s) (c :: t)
| esc_coded : forall a b x y s t, hex_digit a x -> hex_digit b y -> coded (chr (N.of_nat (16 * x + y))) ->
    escaped plain coded s t -> escaped plain coded ("%"%char :: a :: b :: s) (chr (N.of_nat (16 * x + y)) :: t).

Definition any (c : ascii) : Prop := True.
Definition beyond_ascii (c : ascii) : Prop := (128 <= code c)%N.
Definition host_byte (c : ascii) : Prop := In c (letters ++ figures ++ bs "!$&'()*+,;=:[]<>""-_.~").
Definition user_byte (c : ascii) : Prop := In c (letters ++ figures ++ bs "-._:~!$&'()*+,;=%@").

(** The text of a server and what it stands for: in a name only percent signs and
    bytes beyond ASCII are encoded, in the zone of an address bytes of names and
    spaces too. *)
Definition name_text : str -> str -> Prop :=
  escaped (fun c => host_byte c \/ beyond_ascii c) (fun c => c = "%"%char \/ beyond_ascii c).
Definition zone_text : str -> str -> Prop :=
  escaped (fun c => host_byte c \/ beyond_ascii c) (fun c => c = "%"%char \/ c = " "%char \/ host_byte c).

(** A port with its colon, or nothing. *)
Definition port_text (p : str) : Prop := p = [] \/ exists d, p = ":"%char :: d /\ Forall (fun c => In c figures) d.

Definition has_text (p s : str) : Prop := exists a b, s = a ++ p ++ b.

(** The server as it is written in a URL, and what it stands for. *)
Inductive server_text : str -> str -> Prop :=
| st_name : forall s h, (forall r, s <> "["%char :: r) ->
    (forall a p, s = a ++ ":"%char :: p -> ~ In ":"%char p -> Forall (fun c => In c figures) p) ->
    name_text s h -> server_text s h
| st_address : forall a p h, port_text p -> ~ has_text (bs "%25") a ->
    name_text ("["%char :: a ++ "]"%char :: p) h -> server_text ("["%char :: a ++ "]"%char :: p) h
| st_zone : forall a z p h1 h2, port_text p -> (forall x y, a ++ bs "%25" ++ z = x ++ bs "%25" ++ y -> length a <= length x) ->
    name_text ("["%char :: a) h1 -> zone_text (bs "%25" ++ z) h2 ->
    server_text ("["%char :: a ++ bs "%25" ++ z ++ "]"%char :: p) (h1 ++ h2 ++ "]"%char :: p).

(** A server with the user before it, or without. *)
Inductive authority_text : str -> str -> Prop :=
| at_server : forall s h, ~ In "@"%char s -> server_text s h -> authority_text s h
| at_user : forall u s h t, ~ In "@"%char s -> Forall user_byte u -> escaped any any u t -> server_text s h ->
    authority_text (u ++ "@"%char :: s) h.

Definition control (c : ascii) : Prop := (code c < 32 \/ code c = 127)%N.

(** A part that starts with [c], or nothing; and a part that may be missing. *)
Definition starts (c : ascii) (s : str) : Prop := s = [] \/ exists r, s = c :: r.

(** [u] is a URL that names the server [host] and the path [path]. *)
Definition names (u host path : str) : Prop :=
  exists authority p query fragment t,
    u = bs "https://" ++ authority ++ p ++ query ++ fragment /\
    (forall c, In c (bs "/?#") -> ~ In c authority) /\
    starts "/" p /\ (forall c, In c (bs "?#") -> ~ In c p) /\
    starts "?" query /\ ~ In "#"%char query /\
    starts "#" fragment /\
    (forall c, In c (authority ++ p ++ query) -> ~ control c) /\
    authority_text authority host /\ escaped any any p path /\ escaped any any (skipn 1 fragment) t.

(** The port of a server: the digits after its last colon. *)
Definition port_of (host p : str) : Prop :=
  exists a, host = a ++ ":"%char :: p /\ Forall (fun c => In c figures) p.

(** The address of a TLS connection to a server. *)
Definition address (host a : str) : Prop :=
  (exists p, port_of host p /\ p <> []) /\ a = host \/
  ~ (exists p, port_of host p /\ p <> []) /\ a = host ++ bs ":443".

(** The name of a server: without its port and without the brackets around an
    address. *)
Definition server_name (host n : str) : Prop :=
  exists a, ((exists p, port_of host p /\ host = a ++ ":"%char :: p) \/ ~ (exists p, port_of host p) /\ a = host) /\
    (a = bs "[" ++ n ++ bs "]" \/ n = a /\ ~ exists m, a = bs "[" ++ m ++ bs "]").
