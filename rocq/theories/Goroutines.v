(** Model of Client.RequestNoParse (client.go:83-92, vanguard_client.go:111-136)
    when several goroutines use clients and requests at the same time.

    The requests are in memory; a goroutine reads and writes their fields one
    after the other, and others may run between any two of these steps. The
    clients' settings are never written by the package, so that they are plain
    values here. Clients has the same code as a function of a request that nobody
    else uses. *)
From Coq Require Import QArith.
From Verif Require Import GoStr GoTime Types Enums EnumTables Records Common Messages Codec Schema
  Document Xml Headers Leaves Wire Marshal Url Clients.
Close Scope Q_scope.

(** ** Programs *)

(** [Look]: time.Now. [Store a f]: an assignment to a field of the request at [a].
    [Load a]: reading a field of it; the field is selected by the continuation.
    [Talk]: operations of the network. *)
Inductive routine : Type :=
| Ended (o : outcome)
| Look (k : gotime -> routine)
| Store (a : nat) (f : Request -> Request) (k : routine)
| Load (a : nat) (k : Request -> routine)
| Talk (p : net outcome) (k : outcome -> routine).

(** ** The fields *)

Definition put_time (t : gotime) (q : Request) : Request :=
  let s := rq_signon q in
  mkRequest (rq_url q) (rq_version q)
    (mkSignonRequest t (SignonRequest_UserID s) (SignonRequest_UserPass s) (SignonRequest_UserKey s)
       (SignonRequest_GenUserKey s) (SignonRequest_Language s) (SignonRequest_Org s) (SignonRequest_Fid s)
       (SignonRequest_AppID s) (SignonRequest_AppVer s) (SignonRequest_ClientUID s))
    (rq_slots q) (rq_indent q) (rq_cr q).

Definition put_version (v : N) (q : Request) : Request :=
  mkRequest (rq_url q) v (rq_signon q) (rq_slots q) (rq_indent q) (rq_cr q).

Definition put_appid (x : str) (q : Request) : Request :=
  let s := rq_signon q in
  mkRequest (rq_url q) (rq_version q)
    (mkSignonRequest (SignonRequest_DtClient s) (SignonRequest_UserID s) (SignonRequest_UserPass s) (SignonRequest_UserKey s)
       (SignonRequest_GenUserKey s) (SignonRequest_Language s) (SignonRequest_Org s) (SignonRequest_Fid s)
       x (SignonRequest_AppVer s) (SignonRequest_ClientUID s))
    (rq_slots q) (rq_indent q) (rq_cr q).

Definition put_appver (x : str) (q : Request) : Request :=
  let s := rq_signon q in
  mkRequest (rq_url q) (rq_version q)
    (mkSignonRequest (SignonRequest_DtClient s) (SignonRequest_UserID s) (SignonRequest_UserPass s) (SignonRequest_UserKey s)
       (SignonRequest_GenUserKey s) (SignonRequest_Language s) (SignonRequest_Org s) (SignonRequest_Fid s)
       (SignonRequest_AppID s) x (SignonRequest_ClientUID s))
    (rq_slots q) (rq_indent q) (rq_cr q).

Definition put_language (x : str) (q : Request) : Request :=
  let s := rq_signon q in
  mkRequest (rq_url q) (rq_version q)
    (mkSignonRequest (SignonRequest_DtClient s) (SignonRequest_UserID s) (SignonRequest_UserPass s) (SignonRequest_UserKey s)
       (SignonRequest_GenUserKey s) x (SignonRequest_Org s) (SignonRequest_Fid s)
       (SignonRequest_AppID s) (SignonRequest_AppVer s) (SignonRequest_ClientUID s))
    (rq_slots q) (rq_indent q) (rq_cr q).

Definition put_indent (b : bool) (q : Request) : Request :=
  mkRequest (rq_url q) (rq_version q) (rq_signon q) (rq_slots q) b (rq_cr q).

Definition put_cr (b : bool) (q : Request) : Request :=
  mkRequest (rq_url q) (rq_version q) (rq_signon q) (rq_slots q) (rq_indent q) b.

Definition put_messages (s : Slots) (q : Request) : Request :=
  mkRequest (rq_url q) (rq_version q) (rq_signon q) s (rq_indent q) (rq_cr q).

(** ** Request.Marshal *)

(** Request.SetClientFields, request.go:64-75: six assignments. *)
Definition client_fields (c : client) (a : nat) (k : gotime -> routine) : routine :=
  Look (fun now =>
    Store a (put_time now)
    (Store a (put_version (client_version c))
    (Store a (put_appid (client_id c))
    (Store a (put_appver (client_appver c))
    (Store a (put_indent (client_indent c))
    (Store a (put_cr (client_cr c)) (k now))))))).

(** Request.Marshal, request.go:80-151, as the sequence of its accesses to the
    request: the version and the line ends for the header (line 84), the
    indentation, the line ends and the version for the encoder (87, 90, 93), the
    sign-on, which is validated (104) and then encoded (111), and the messages
    with the version (116-140). Simplified: the fields of the sign-on are read
    together, once to validate and once to encode; the messages and the version
    are read once for all sets, and what validating changes in them is written
    once. *)
Definition marshal_steps (a : nat) (k : str + goerr -> routine) : routine :=
  Load a (fun q1 => let version1 := rq_version q1 in
  Load a (fun q2 => let cr1 := rq_cr q2 in
  Load a (fun q3 => let indent := rq_indent q3 in
  Load a (fun q4 => let cr2 := rq_cr q4 in
  Load a (fun q5 => let version2 := rq_version q5 in
  Load a (fun q6 =>
    let v := signon_request_valid (rq_signon q6) in
    let language := SignonRequest_Language (fst v) in
    let rest :=
      match snd v with
      | Some err => k (inr (EPlain err))
      | None =>
          Load a (fun q7 => let signon := rq_signon q7 in
          Load a (fun q8 => let version3 := rq_version q8 in
          Load a (fun q9 => let sets := set_table (rq_slots q9) Rq in
          Store a (put_messages (slots_of_list (fst (attempt_sets sets version3))))
            match snd (attempt_sets sets version3) with
            | Some err => k (inr err)
            | None =>
                match encode_as SignonRequest_ty (SignonRequest_to signon), encode_sets sets version3 with
                | Some s, Some r =>
                    k (inl (header_or_nothing version1 cr1 ++
                            print (mkStyle indent cr2 (if (version2 <? OfxVersion200)%N then ofx_leaf_elements else [])) true 0
                              (Elem (bs "OFX") (Elem (msgtype_string (MSignon, Rq)) s :: fst r))))
                | _, _ => k (inr (EPlain []))      (* a sign-on and messages that pass can be encoded *)
                end
            end)))
      end in
    if str_eqb language (SignonRequest_Language (rq_signon q6)) then rest
    else Store a (put_language language) rest)))))).

(** [w] at another time. *)
Definition at_time (w : world) (now : gotime) : world := mkWorld now (w_resolve w) (w_carry w).

(** Client.RequestNoParse. The time of [w] does not matter. *)
Definition request_routine (w : world) (c : client) (a : nat) : routine :=
  client_fields c a (fun now => let w := at_time w now in
  marshal_steps a (fun r =>
    match r with
    | inr err => Ended (None, Some err)
    | inl b =>
        Load a (fun q =>
        Talk (raw_request w c (rq_url q) b true) (fun o =>
          match c, fst o with
          | Vanguard _, Some rp =>
              if (rp_length rp <=? 0)%Z && negb (match rp_cookies rp with [] => true | _ => false end) then
                marshal_steps a (fun r' =>
                  match r' with
                  | inr err => Ended (None, Some err)
                  | inl b' => Load a (fun q' => Talk (cookies_raw w (rq_url q') b' true (rp_cookies rp)) (fun o' => Ended o'))
                  end)
              else Ended o
          | _, _ => Ended o
          end))
    end)).
