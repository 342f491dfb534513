(** Model of the command line tool, /repo/cmd/ofx/*.go.

    What goes to standard error is not modelled. Errors print as the machine says
    (their texts come from the Go library for the most part). *)
From Coq Require Import QArith.
From Verif Require Import GoStr GoNum GoUint GoTime Types Enums EnumTables Records Common Messages Codec Schema
  Document Accessors Utf8 Wire Marshal Url Clients.
Close Scope Q_scope.

(** ** Programs with effects *)

(** [Exit]: os.Exit. [Panic]: a run-time panic, such as a nil dereference.
    [Print]: writing to standard output. [Clock]: time.Now. [Rand]: rand.Read for
    16 bytes. [Prompt]: term.ReadPassword, [None] is an error. [Create]: os.Create,
    answered by whether it succeeds. [Save]: io.Copy of these bytes to the file
    just created. [Send] and [Ask]: a method of a client. *)
Inductive io (A : Type) : Type :=
| Return (a : A)
| Exit (code : Z)
| Panic
| Print (s : str) (k : io A)
| Sleep (ns : Z) (k : io A)
| Clock (k : gotime -> io A)
| Rand (k : rand_result -> io A)
| Prompt (k : option str -> io A)
| Create (name : str) (k : bool -> io A)
| Save (b : str) (k : bool -> io A)
| Send (p : net (outcome * Request)) (k : outcome * Request -> io A)
| Ask (p : net ((option Response * option goerr) * Request)) (k : (option Response * option goerr) * Request -> io A).
Arguments Return {A} a.
Arguments Exit {A} code.
Arguments Panic {A}.
Arguments Print {A} s k.
Arguments Sleep {A} ns k.
Arguments Clock {A} k.
Arguments Rand {A} k.
Arguments Prompt {A} k.
Arguments Create {A} name k.
Arguments Save {A} b k.
Arguments Send {A} p k.
Arguments Ask {A} p k.

Fixpoint bind_io {A B} (p : io A) (f : A -> io B) : io B :=
  match p with
  | Return a => f a
  | Exit c => Exit c
  | Panic => Panic
  | Print s k => Print s (bind_io k f)
  | Sleep n k => Sleep n (bind_io k f)
  | Clock k => Clock (fun x => bind_io (k x) f)
  | Rand k => Rand (fun x => bind_io (k x) f)
  | Prompt k => Prompt (fun x => bind_io (k x) f)
  | Create n k => Create n (fun x => bind_io (k x) f)
  | Save b k => Save b (fun x => bind_io (k x) f)
  | Send p k => Send p (fun x => bind_io (k x) f)
  | Ask p k => Ask p (fun x => bind_io (k x) f)
  end.

Notation "x <~ p ; q" := (bind_io p (fun x => q)) (at level 61, p at next level, right associativity).
Notation "p ~; q" := (bind_io p (fun _ => q)) (at level 61, right associativity).

Definition print (s : str) : io unit := Print s (Return tt).
Definition println (s : str) : io unit := Print (s ++ [chr 10]) (Return tt).

(** A loop over a slice. *)
Fixpoint each {A} (l : list A) (f : A -> io unit) : io unit :=
  match l with
  | [] => Return tt
  | x :: l => f x ~; each l f
  end.

(** What is taken from the machine: the network's world (its time is replaced by
    that of the clock), the environment and the texts of errors. *)
Record machine := mkMachine {
  m_world : world;
  m_env : env;
  m_error : goerr -> str
}.

Definition world_at (m : machine) (now : gotime) : world :=
  mkWorld now (w_resolve (m_world m)) (w_carry (m_world m)).

(** time.Unix(0, 0), in the local time zone. *)
Definition unix_epoch (m : machine) : gotime :=
  let s := (719162 * 86400)%Z in
  mkTime (s * sec_ns) (snd (env_local (m_env m) s)) (fst (env_local (m_env m) s)).

(** ** Settings: the variables the flags set

    command.go:24-28, bankdownload.go:19, invdownload.go:19 and
    detect_settings.go:19. *)
Record settings := mkSettings {
  st_serverURL : str;
  st_username : str;
  st_password : str;
  st_org : str;
  st_fid : str;
  st_appID : str;
  st_appVer : str;
  st_ofxVersion : str;
  st_clientUID : str;
  st_noIndent : bool;
  st_carriageReturn : bool;
  st_dryrun : bool;
  st_userAgent : str;
  st_filename : str;
  st_bankID : str;
  st_acctID : str;
  st_acctType : str;
  st_brokerID : str;
  st_delay : N
}.

(** The values the variables get when the flags are defined: command.go:30-44,
    bankdownload.go:21-27 and the like. All definitions of a flag have the same
    default. *)
Definition defaults : settings :=
  mkSettings [] [] [] [] [] (bs "QWIN") (bs "2400") (bs "203") [] false false false [] (bs "./response.ofx")
    [] [] (bs "CHECKING") [] 500.

Definition set_serverURL (x : str) (s : settings) : settings :=
  mkSettings x (st_username s) (st_password s) (st_org s) (st_fid s) (st_appID s) (st_appVer s)
    (st_ofxVersion s) (st_clientUID s) (st_noIndent s) (st_carriageReturn s) (st_dryrun s) (st_userAgent s)
    (st_filename s) (st_bankID s) (st_acctID s) (st_acctType s) (st_brokerID s) (st_delay s).
Definition set_username (x : str) (s : settings) : settings :=
  mkSettings (st_serverURL s) x (st_password s) (st_org s) (st_fid s) (st_appID s) (st_appVer s)
    (st_ofxVersion s) (st_clientUID s) (st_noIndent s) (st_carriageReturn s) (st_dryrun s) (st_userAgent s)
    (st_filename s) (st_bankID s) (st_acctID s) (st_acctType s) (st_brokerID s) (st_delay s).
Definition set_password (x : str) (s : settings) : settings :=
  mkSettings (st_serverURL s) (st_username s) x (st_org s) (st_fid s) (st_appID s) (st_appVer s)
    (st_ofxVersion s) (st_clientUID s) (st_noIndent s) (st_carriageReturn s) (st_dryrun s) (st_userAgent s)
    (st_filename s) (st_bankID s) (st_acctID s) (st_acctType s) (st_brokerID s) (st_delay s).
Definition set_org (x : str) (s : settings) : settings :=
  mkSettings (st_serverURL s) (st_username s) (st_password s) x (st_fid s) (st_appID s) (st_appVer s)
    (st_ofxVersion s) (st_clientUID s) (st_noIndent s) (st_carriageReturn s) (st_dryrun s) (st_userAgent s)
    (st_filename s) (st_bankID s) (st_acctID s) (st_acctType s) (st_brokerID s) (st_delay s).
Definition set_fid (x : str) (s : settings) : settings :=
  mkSettings (st_serverURL s) (st_username s) (st_password s) (st_org s) x (st_appID s) (st_appVer s)
    (st_ofxVersion s) (st_clientUID s) (st_noIndent s) (st_carriageReturn s) (st_dryrun s) (st_userAgent s)
    (st_filename s) (st_bankID s) (st_acctID s) (st_acctType s) (st_brokerID s) (st_delay s).
Definition set_appID (x : str) (s : settings) : settings :=
  mkSettings (st_serverURL s) (st_username s) (st_password s) (st_org s) (st_fid s) x (st_appVer s)
    (st_ofxVersion s) (st_clientUID s) (st_noIndent s) (st_carriageReturn s) (st_dryrun s) (st_userAgent s)
    (st_filename s) (st_bankID s) (st_acctID s) (st_acctType s) (st_brokerID s) (st_delay s).
Definition set_appVer (x : str) (s : settings) : settings :=
  mkSettings (st_serverURL s) (st_username s) (st_password s) (st_org s) (st_fid s) (st_appID s) x
    (st_ofxVersion s) (st_clientUID s) (st_noIndent s) (st_carriageReturn s) (st_dryrun s) (st_userAgent s)
    (st_filename s) (st_bankID s) (st_acctID s) (st_acctType s) (st_brokerID s) (st_delay s).
Definition set_ofxVersion (x : str) (s : settings) : settings :=
  mkSettings (st_serverURL s) (st_username s) (st_password s) (st_org s) (st_fid s) (st_appID s)
    (st_appVer s) x (st_clientUID s) (st_noIndent s) (st_carriageReturn s) (st_dryrun s) (st_userAgent s)
    (st_filename s) (st_bankID s) (st_acctID s) (st_acctType s) (st_brokerID s) (st_delay s).
Definition set_clientUID (x : str) (s : settings) : settings :=
  mkSettings (st_serverURL s) (st_username s) (st_password s) (st_org s) (st_fid s) (st_appID s) (st_appVer s)
    (st_ofxVersion s) x (st_noIndent s) (st_carriageReturn s) (st_dryrun s) (st_userAgent s) (st_filename s)
    (st_bankID s) (st_acctID s) (st_acctType s) (st_brokerID s) (st_delay s).
Definition set_noIndent (x : bool) (s : settings) : settings :=
  mkSettings (st_serverURL s) (st_username s) (st_password s) (st_org s) (st_fid s) (st_appID s) (st_appVer s)
    (st_ofxVersion s) (st_clientUID s) x (st_carriageReturn s) (st_dryrun s) (st_userAgent s) (st_filename s)
    (st_bankID s) (st_acctID s) (st_acctType s) (st_brokerID s) (st_delay s).
Definition set_carriageReturn (x : bool) (s : settings) : settings :=
  mkSettings (st_serverURL s) (st_username s) (st_password s) (st_org s) (st_fid s) (st_appID s) (st_appVer s)
    (st_ofxVersion s) (st_clientUID s) (st_noIndent s) x (st_dryrun s) (st_userAgent s) (st_filename s)
    (st_bankID s) (st_acctID s) (st_acctType s) (st_brokerID s) (st_delay s).
Definition set_dryrun (x : bool) (s : settings) : settings :=
  mkSettings (st_serverURL s) (st_username s) (st_password s) (st_org s) (st_fid s) (st_appID s) (st_appVer s)
    (st_ofxVersion s) (st_clientUID s) (st_noIndent s) (st_carriageReturn s) x (st_userAgent s)
    (st_filename s) (st_bankID s) (st_acctID s) (st_acctType s) (st_brokerID s) (st_delay s).
Definition set_userAgent (x : str) (s : settings) : settings :=
  mkSettings (st_serverURL s) (st_username s) (st_password s) (st_org s) (st_fid s) (st_appID s) (st_appVer s)
    (st_ofxVersion s) (st_clientUID s) (st_noIndent s) (st_carriageReturn s) (st_dryrun s) x (st_filename s)
    (st_bankID s) (st_acctID s) (st_acctType s) (st_brokerID s) (st_delay s).
Definition set_filename (x : str) (s : settings) : settings :=
  mkSettings (st_serverURL s) (st_username s) (st_password s) (st_org s) (st_fid s) (st_appID s) (st_appVer s)
    (st_ofxVersion s) (st_clientUID s) (st_noIndent s) (st_carriageReturn s) (st_dryrun s) (st_userAgent s) x
    (st_bankID s) (st_acctID s) (st_acctType s) (st_brokerID s) (st_delay s).
Definition set_bankID (x : str) (s : settings) : settings :=
  mkSettings (st_serverURL s) (st_username s) (st_password s) (st_org s) (st_fid s) (st_appID s) (st_appVer s)
    (st_ofxVersion s) (st_clientUID s) (st_noIndent s) (st_carriageReturn s) (st_dryrun s) (st_userAgent s)
    (st_filename s) x (st_acctID s) (st_acctType s) (st_brokerID s) (st_delay s).
Definition set_acctID (x : str) (s : settings) : settings :=
  mkSettings (st_serverURL s) (st_username s) (st_password s) (st_org s) (st_fid s) (st_appID s) (st_appVer s)
    (st_ofxVersion s) (st_clientUID s) (st_noIndent s) (st_carriageReturn s) (st_dryrun s) (st_userAgent s)
    (st_filename s) (st_bankID s) x (st_acctType s) (st_brokerID s) (st_delay s).
Definition set_acctType (x : str) (s : settings) : settings :=
  mkSettings (st_serverURL s) (st_username s) (st_password s) (st_org s) (st_fid s) (st_appID s) (st_appVer s)
    (st_ofxVersion s) (st_clientUID s) (st_noIndent s) (st_carriageReturn s) (st_dryrun s) (st_userAgent s)
    (st_filename s) (st_bankID s) (st_acctID s) x (st_brokerID s) (st_delay s).
Definition set_brokerID (x : str) (s : settings) : settings :=
  mkSettings (st_serverURL s) (st_username s) (st_password s) (st_org s) (st_fid s) (st_appID s) (st_appVer s)
    (st_ofxVersion s) (st_clientUID s) (st_noIndent s) (st_carriageReturn s) (st_dryrun s) (st_userAgent s)
    (st_filename s) (st_bankID s) (st_acctID s) (st_acctType s) x (st_delay s).
Definition set_delay (x : N) (s : settings) : settings :=
  mkSettings (st_serverURL s) (st_username s) (st_password s) (st_org s) (st_fid s) (st_appID s) (st_appVer s)
    (st_ofxVersion s) (st_clientUID s) (st_noIndent s) (st_carriageReturn s) (st_dryrun s) (st_userAgent s)
    (st_filename s) (st_bankID s) (st_acctID s) (st_acctType s) (st_brokerID s) x.

(** ** Package flag *)

Inductive flag_value :=
| FString (set : str -> settings -> settings)
| FBool (set : bool -> settings -> settings)
| FUint (set : N -> settings -> settings).

Definition flags := list (str * flag_value).

Fixpoint find_flag (name : str) (l : flags) : option flag_value :=
  match l with
  | [] => None
  | (n, v) :: l => if str_eqb n name then Some v else find_flag name l
  end.

(** strconv.ParseBool. *)
Definition parse_bool (s : str) : option bool :=
  if existsb (str_eqb s) [bs "1"; bs "t"; bs "T"; bs "true"; bs "TRUE"; bs "True"] then Some true
  else if existsb (str_eqb s) [bs "0"; bs "f"; bs "F"; bs "false"; bs "FALSE"; bs "False"] then Some false
  else None.

(** The Set methods of flag's values. *)
Definition set_flag (v : flag_value) (s : str) (st : settings) : option settings :=
  match v with
  | FString f => Some (f s st)
  | FBool f => match parse_bool s with Some b => Some (f b st) | None => None end
  | FUint f => match parse_uint64 s with Some n => Some (f n st) | None => None end
  end.

(** The end of FlagSet.parseOne: name and value, given or not, of one flag; the
    remaining arguments. *)
Inductive flag_result :=
| FDone (st : settings)          (* no more flags *)
| FMore (st : settings) (args : list str)
| FHelp                          (* ErrHelp *)
| FError.

Definition use_flag (fl : flags) (name : str) (value : option str) (st : settings) (args : list str) : flag_result :=
  match find_flag name fl with
  | None => if str_eqb name (bs "help") || str_eqb name (bs "h") then FHelp else FError
  | Some v =>
      let set s rest := match set_flag v s st with Some st' => FMore st' rest | None => FError end in
      match v, value, args with
      | FBool _, Some s, _ => set s args
      | FBool _, None, _ => set (bs "true") args
      | _, Some s, _ => set s args
      | _, None, s :: rest => set s rest
      | _, None, [] => FError
      end
  end.

(** The flag's name and value: the search for '=' starts at the second byte. *)
Definition split_flag (s : str) : str * option str :=
  match s with
  | [] => ([], None)
  | c :: r => match index_of (bs "=") r with
              | Some n => (c :: firstn n r, Some (skipn (S n) r))
              | None => (s, None)
              end
  end.

(** FlagSet.parseOne, package flag. *)
Definition parse_one (fl : flags) (st : settings) (args : list str) : flag_result :=
  match args with
  | [] => FDone st
  | s :: rest =>
      match s with
      | c :: (d :: _) as t =>
          if negb (Ascii.eqb c "-") then FDone st
          else
            let name := if Ascii.eqb d "-" then tl t else t in
            if Ascii.eqb d "-" && match name with [] => true | _ => false end then FDone st
            else match name with
                 | [] => FError
                 | x :: _ =>
                     if Ascii.eqb x "-" || Ascii.eqb x "=" then FError
                     else let '(n, v) := split_flag name in use_flag fl n v st rest
                 end
      | _ => FDone st
      end
  end.

(** FlagSet.Parse with ExitOnError: every step takes an argument, so [fuel] is the
    number of arguments. *)
Fixpoint parse_flags_fuel (fuel : nat) (fl : flags) (st : settings) (args : list str) : io settings :=
  match fuel with
  | O => Return st
  | S fuel =>
      match parse_one fl st args with
      | FDone st => Return st
      | FMore st args => parse_flags_fuel fuel fl st args
      | FHelp => Exit 0
      | FError => Exit 2
      end
  end.

Definition parse_flags (fl : flags) (args : list str) : io settings :=
  parse_flags_fuel (S (length args)) fl defaults args.

(** ** Flags of the commands *)

(** defineServerFlags, command.go:30-44. *)
Definition server_flags : flags :=
  [(bs "url", FString set_serverURL); (bs "username", FString set_username); (bs "password", FString set_password);
   (bs "org", FString set_org); (bs "fid", FString set_fid); (bs "appid", FString set_appID);
   (bs "appver", FString set_appVer); (bs "ofxversion", FString set_ofxVersion);
   (bs "clientuid", FString set_clientUID); (bs "noindent", FBool set_noIndent);
   (bs "carriagereturn", FBool set_carriageReturn); (bs "useragent", FString set_userAgent);
   (bs "dryrun", FBool set_dryrun)].

(** detect_settings.go:21-28. *)
Definition detect_flags : flags :=
  [(bs "url", FString set_serverURL); (bs "username", FString set_username); (bs "password", FString set_password);
   (bs "org", FString set_org); (bs "fid", FString set_fid); (bs "delay", FUint set_delay)].

Definition f_filename := (bs "filename", FString set_filename).
Definition f_bankid := (bs "bankid", FString set_bankID).
Definition f_acctid := (bs "acctid", FString set_acctID).
Definition f_accttype := (bs "accttype", FString set_acctType).
Definition f_brokerid := (bs "brokerid", FString set_brokerID).

(** ** Checks *)

Definition is_empty (s : str) : bool := match s with [] => true | _ => false end.

(** checkServerFlags, command.go:46-68. *)
Definition check_server_flags (m : machine) (st : settings) : io (bool * settings) :=
  (if is_empty (st_serverURL st) then println (bs "Error: Server URL empty") else Return tt) ~;
  (if is_empty (st_username st) then println (bs "Error: Username empty") else Return tt) ~;
  let ret := negb (is_empty (st_serverURL st)) && negb (is_empty (st_username st)) in
  if ret && is_empty (st_password st) then
    print (bs "Password for " ++ st_username st ++ bs ": ") ~;
    Prompt (fun a =>
      match a with
      | None => println (bs "Error reading password: " ++ m_error m (EPlain (bs "password"))) ~; Return (false, st)
      | Some pass => Return (true, set_password pass st)
      end)
  else Return (ret, st).

(** downloadCheckFlags, ccDownloadCheckFlags and invDownloadCheckFlags,
    bankdownload.go:29-38, ccdownload.go:25-34, invdownload.go:28-37. *)
Definition check_download_flags (m : machine) (st : settings) : io (bool * settings) :=
  r <~ check_server_flags m st;
  if is_empty (st_filename (snd r)) then println (bs "Error: Filename empty") ~; Return (false, snd r)
  else Return r.

Definition anonymous : str := bs "anonymous00000000000000000000000".

(** downloadProfileCheckFlags, profiledownload.go:24-40. *)
Definition check_profile_flags (m : machine) (st : settings) : io (bool * settings) :=
  check_download_flags m (if is_empty (st_username st) then set_password anonymous (set_username anonymous st) else st).

(** ** Requests *)

(** The request of newRequest and tryProfile before messages are added. *)
Definition empty_request (st : settings) (sl : Slots) : Request :=
  mkRequest (st_serverURL st) 0
    (mkSignonRequest zero_time (st_username st) (st_password st) [] false [] (st_org st) (st_fid st) [] []
       (st_clientUID st)) sl false false.

(** newRequest, util.go:9-34. The messages are added by the callers, so the
    function from them to the request is returned. *)
Definition new_request (m : machine) (st : settings) : io (client * (Slots -> Request)) :=
  match enum_new enum_ofxVersion (st_ofxVersion st) with
  | (_, false) => println (bs "Error creating new OfxVersion enum: " ++ m_error m (EPlain (bs "version"))) ~; Exit 1
  | (ver, true) =>
      Return (get_client (st_serverURL st)
                (mkBasicClient ver (st_appID st) (st_appVer st) (st_noIndent st) (st_carriageReturn st) (st_userAgent st) None),
              empty_request st)
  end.

(** printRequest, util.go:36-45. *)
Definition print_request (m : machine) (c : client) (q : Request) : io unit :=
  Clock (fun now =>
    match request_marshal (set_client_fields now c q) with
    | None => println (m_error m (marshal_failure (set_client_fields now c q)))
    | Some (b, _) => println b
    end).

(** ofxgo.RandomUID and the handling of its error in all commands. *)
Definition new_uid (m : machine) : io str :=
  Rand (fun r => match random_uid r with
                 | None => println (bs "Error creating uid for transaction: " ++ m_error m (EPlain (bs "uid"))) ~; Exit 1
                 | Some uid => Return uid
                 end).

(** client.RequestNoParse and client.Request: they look at the clock first. *)
Definition send (m : machine) (c : client) (q : Request) : io outcome :=
  Clock (fun now => Send (request_no_parse (world_at m now) c q) (fun x => Return (fst x))).
Definition ask (m : machine) (c : client) (q : Request) : io ((option Response * option goerr) * Request) :=
  Clock (fun now => Ask (client_request (world_at m now) (m_env m) c q) (fun x => Return x)).

(** The account type and what is done if it is not known, bankdownload.go:43-47
    and banktransactions.go:28-32. *)
Definition account_type (m : machine) (st : settings) : io N :=
  match enum_new enum_acctType (st_acctType st) with
  | (_, false) => println (bs "Error parsing accttype: " ++ m_error m (EPlain (bs "accttype"))) ~; Exit 1
  | (t, true) => Return t
  end.

(** The messages of the commands: bankdownload.go:55-65 and
    banktransactions.go:40-50; ccdownload.go:45-52 and cctransactions.go:32-39;
    invdownload.go:48-61 and invtransactions.go:33-46; profiledownload.go:51-55;
    get_accounts.go:32-36. *)
Definition bank_message (st : settings) (t : N) (uid : str) : Slots :=
  mkSlots [] [MsgStatementRequest (mkStatementRequest uid [] [] (mkBankAcct (st_bankID st) [] (st_acctID st) t []) None None true false false)]
    [] [] [] [] [] [] [] [] [] [] [] [].
Definition cc_message (st : settings) (uid : str) : Slots :=
  mkSlots [] [] [MsgCCStatementRequest (mkCCStatementRequest uid [] [] (mkCCAcct (st_acctID st) []) None None true false false)]
    [] [] [] [] [] [] [] [] [] [] [].
Definition inv_message (st : settings) (uid : str) : Slots :=
  mkSlots [] [] [] []
    [MsgInvStatementRequest (mkInvStatementRequest uid [] [] (mkInvAcct (st_brokerID st) (st_acctID st)) None None
       true true None true true true true false)] [] [] [] [] [] [] [] [] [].
Definition profile_message (uid : str) (up : gotime) : Slots :=
  mkSlots [] [] [] [] [] [] [] [] [] [] [] [] [MsgProfileRequest (mkProfileRequest uid [] [] [] up)] [].
Definition accounts_message (m : machine) (uid : str) : Slots :=
  mkSlots [MsgAcctInfoRequest (mkAcctInfoRequest uid [] [] (unix_epoch m))] [] [] [] [] [] [] [] [] [] [] [] [] [].

(** ** Downloads *)

(** The end of the download commands: bankdownload.go:67-90, ccdownload.go:54-78,
    invdownload.go:63-88 and profiledownload.go:57-80. *)
Definition finish_download (m : machine) (what : str) (st : settings) (c : client) (q : Request) : io unit :=
  if st_dryrun st then print_request m c q
  else
    o <~ send m c q;
    match o with
    | (_, Some err) => println (bs "Error requesting " ++ what ++ bs ": " ++ m_error m err) ~; Exit 1
    | (None, None) => Panic        (* response.Body of nil *)
    | (Some rp, None) =>
        Create (st_filename st) (fun ok =>
          if negb ok then println (bs "Error creating file to write to: " ++ m_error m (EPlain (bs "create"))) ~; Exit 1
          else Save (rp_body rp) (fun ok =>
            if negb ok then println (bs "Error writing response to file: " ++ m_error m (EPlain (bs "write"))) ~; Exit 1
            else Return tt))
    end.

(** download, bankdownload.go:40-91. *)
Definition download_bank (m : machine) (st : settings) : io unit :=
  cq <~ new_request m st;
  t <~ account_type m st;
  uid <~ new_uid m;
  finish_download m (bs "account statement") st (fst cq) (snd cq (bank_message st t uid)).

(** ccDownload, ccdownload.go:36-79. *)
Definition download_cc (m : machine) (st : settings) : io unit :=
  cq <~ new_request m st;
  uid <~ new_uid m;
  finish_download m (bs "account statement") st (fst cq) (snd cq (cc_message st uid)).

(** invDownload, invdownload.go:39-89. *)
Definition download_inv (m : machine) (st : settings) : io unit :=
  cq <~ new_request m st;
  uid <~ new_uid m;
  finish_download m (bs "account statement") st (fst cq) (snd cq (inv_message st uid)).

(** downloadProfile, profiledownload.go:42-81. *)
Definition download_profile (m : machine) (st : settings) : io unit :=
  cq <~ new_request m st;
  uid <~ new_uid m;
  finish_download m (bs "FI profile") st (fst cq) (snd cq (profile_message uid zero_time)).

(** ** Printing *)

(** %-ns: at least [n] characters, filled with spaces at the end. *)
Definition pad_right (n : nat) (s : str) : str := s ++ repeat (chr 32) (n - length (runes s)).

(** %s of an enum: its String method (its panic cannot occur, see C01). *)
Definition enum_text (t : enum) (e : N) : str := match enum_string t e with Some s => s | None => [] end.

(** The request and the checks of its answer that the other commands share:
    banktransactions.go:52-67, cctransactions.go:41-56, get_accounts.go:38-53;
    invtransactions.go:48-62 prints no message for the error. *)
Definition ask_and_check (m : machine) (error : option str) (st : settings) (c : client) (q : Request)
    (k : Response -> io unit) : io unit :=
  if st_dryrun st then print_request m c q
  else
    x <~ ask m c q;
    match fst x with
    | (_, Some err) =>
        match error with
        | Some s => println (s ++ bs ": " ++ m_error m err) ~; Exit 1
        | None => Exit 1
        end
    | (None, None) => Panic
    | (Some r, None) =>
        let s := SignonResponse_Status (rs_signon r) in
        if (Status_Code s =? 0)%Z then k r
        else
          print (bs "Nonzero signon status (" ++ fmt_d (Status_Code s) ++ bs ": " ++
                 match status_code_meaning s with Some t => t | None => [] end ++
                 bs ") with message: " ++ Status_Message s ++ [chr 10]) ~; Exit 1
    end.

(** The loop's body in get_accounts.go:63-73. *)
Definition account_text (a : AcctInfo) : str :=
  let nl := [chr 10] in let tab := [chr 9] in let q := [chr 34] in
  match AcctInfo_BankAcctInfo a, AcctInfo_CCAcctInfo a, AcctInfo_InvAcctInfo a with
  | Some b, _, _ =>
      let f := BankAcctInfo_BankAcctFrom b in
      bs "Bank Account:" ++ nl ++ tab ++ bs "BankID: " ++ q ++ BankAcct_BankID f ++ q ++ nl ++
      tab ++ bs "AcctID: " ++ q ++ BankAcct_AcctID f ++ q ++ nl ++
      tab ++ bs "AcctType: " ++ enum_text enum_acctType (BankAcct_AcctType f) ++ nl
  | None, Some c, _ =>
      bs "Credit card:" ++ nl ++ tab ++ bs "AcctID: " ++ q ++ CCAcct_AcctID (CCAcctInfo_CCAcctFrom c) ++ q ++ nl
  | None, None, Some i =>
      let f := InvAcctInfo_InvAcctFrom i in
      bs "Investment account:" ++ nl ++ tab ++ bs "BrokerID: " ++ q ++ InvAcct_BrokerID f ++ q ++ nl ++
      tab ++ bs "AcctID: " ++ q ++ InvAcct_AcctID f ++ q ++ nl
  | None, None, None => bs "Unknown type: " ++ AcctInfo_Name a ++ bs " " ++ AcctInfo_Desc a ++ nl
  end.

(** getAccounts, get_accounts.go:23-75. *)
Definition get_accounts (m : machine) (st : settings) : io unit :=
  cq <~ new_request m st;
  uid <~ new_uid m;
  ask_and_check m (Some (bs "Error requesting account information")) st (fst cq) (snd cq (accounts_message m uid)) (fun r =>
    match sl_signup (rs_slots r) with
    | [] => println (bs "No signup messages received")
    | x :: _ =>
        print ([chr 10] ++ bs "Found the following accounts:" ++ [chr 10; chr 10]) ~;
        match x with
        | MsgAcctInfoResponse a => each (AcctInfoResponse_AcctInfo a) (fun i => print (account_text i))
        | _ => Return tt
        end
    end).

(** The name and the memo, banktransactions.go:89-98. *)
Definition with_memo (name : str) (t : Transaction) : str :=
  if is_empty (Transaction_Memo t) then name else name ++ bs " - " ++ Transaction_Memo t.

(** banktransactions.go:84-87 and 100, cctransactions.go:67-70 and 83. *)
Definition transaction_text (cur name : str) (t : Transaction) : str :=
  let currency := match Transaction_Currency t with Some c => Currency_CurSym c | None => cur end in
  date_string (Transaction_DtPosted t) ++ bs " " ++
  pad_right 15 (amount_string (Transaction_TrnAmt t) ++ bs " " ++ currency) ++ bs " " ++
  pad_right 11 (enum_text enum_trnType (Transaction_TrnType t)) ++ bs " " ++ with_memo name t ++ [chr 10].

(** printTransaction, banktransactions.go:83-101. *)
Definition print_transaction (cur : str) (t : Transaction) : io unit :=
  let name := if is_empty (Transaction_Name t) then match Transaction_Payee t with Some p => Payee_Name p | None => [] end
              else Transaction_Name t in
  print (transaction_text cur name t).

Definition balance_text (bal : Q) (cur : str) (d : gotime) : str :=
  bs "Balance: " ++ amount_string bal ++ bs " " ++ cur ++ bs " (as of " ++ date_string d ++ bs ")" ++ [chr 10].

(** banktransactions.go:69-80. *)
Definition print_bank (r : Response) : io unit :=
  match sl_bank (rs_slots r) with
  | [] => println (bs "No banking messages received")
  | MsgStatementResponse s :: _ =>
      print (balance_text (StatementResponse_BalAmt s) (StatementResponse_CurDef s) (StatementResponse_DtAsOf s)) ~;
      println (bs "Transactions:") ~;
      match StatementResponse_BankTranList s with
      | None => Panic
      | Some l => each (TransactionList_Transactions l) (print_transaction (StatementResponse_CurDef s))
      end
  | _ => Return tt
  end.

(** bankTransactions, banktransactions.go:25-81. *)
Definition transactions_bank (m : machine) (st : settings) : io unit :=
  cq <~ new_request m st;
  t <~ account_type m st;
  uid <~ new_uid m;
  ask_and_check m (Some (bs "Error requesting account statement")) st (fst cq) (snd cq (bank_message st t uid)) print_bank.

(** The loop's body in cctransactions.go:66-84. *)
Definition print_cc_transaction (cur : str) (t : Transaction) : io unit :=
  if is_empty (Transaction_Name t) then
    match Transaction_Payee t with
    | None => Panic
    | Some p => print (transaction_text cur (Payee_Name p) t)
    end
  else print (transaction_text cur (Transaction_Name t) t).

(** cctransactions.go:58-85. *)
Definition print_cc (r : Response) : io unit :=
  match sl_creditcard (rs_slots r) with
  | [] => println (bs "No banking messages received")
  | MsgCCStatementResponse s :: _ =>
      print (balance_text (CCStatementResponse_BalAmt s) (CCStatementResponse_CurDef s) (CCStatementResponse_DtAsOf s)) ~;
      println (bs "Transactions:") ~;
      match CCStatementResponse_BankTranList s with
      | None => Panic
      | Some l => each (TransactionList_Transactions l) (print_cc_transaction (CCStatementResponse_CurDef s))
      end
  | _ => Return tt
  end.

(** ccTransactions, cctransactions.go:23-86. *)
Definition transactions_cc (m : machine) (st : settings) : io unit :=
  cq <~ new_request m st;
  uid <~ new_uid m;
  ask_and_check m (Some (bs "Error requesting account statement")) st (fst cq) (snd cq (cc_message st uid)) print_cc.

(** invtransactions.go:99-102 and the like. *)
Definition currency_or (cur : str) (c : Currency) : str :=
  match currency_valid c with None => Currency_CurSym c | Some _ => cur end.

Definition sec_text (s : SecurityID) : str := SecurityID_UniqueIDType s ++ bs " " ++ SecurityID_UniqueID s.

(** printInvTran, invtransactions.go:170-172. *)
Definition inv_tran_text (i : InvTran) : str := date_string (InvTran_DtTrade i).

(** printInvBuy, invtransactions.go:174-183. *)
Definition inv_buy_text (cur : str) (b : InvBuy) : str :=
  inv_tran_text (InvBuy_InvTran b) ++ amount_string (InvBuy_Units b) ++ bs " (" ++ sec_text (InvBuy_SecID b) ++ bs ")@" ++
  amount_string (InvBuy_UnitPrice b) ++ bs " " ++ currency_or cur (InvBuy_Currency b) ++ bs " (Total: " ++
  amount_string (InvBuy_Total b) ++ bs ")" ++ [chr 10].

(** printInvSell, invtransactions.go:185-194. *)
Definition inv_sell_text (cur : str) (s : InvSell) : str :=
  inv_tran_text (InvSell_InvTran s) ++ bs " " ++ amount_string (InvSell_Units s) ++ bs " (" ++ sec_text (InvSell_SecID s) ++
  bs ")@" ++ amount_string (InvSell_UnitPrice s) ++ bs " " ++ currency_or cur (InvSell_Currency s) ++ bs " (Total: " ++
  amount_string (InvSell_Total s) ++ bs ")" ++ [chr 10].

(** invtransactions.go:82-165. *)
Definition inv_transaction_text (cur : str) (t : InvTransaction) : str :=
  let sp := bs " " in let nl := [chr 10] in
  let sub e := enum_text enum_subAcctType e in
  pad_right 14 (InvTransaction_TransactionType_method t) ++
  match t with
  | InvTransaction_BuyDebt x => inv_buy_text cur (BuyDebt_InvBuy x)
  | InvTransaction_BuyMF x => inv_buy_text cur (BuyMF_InvBuy x)
  | InvTransaction_BuyOpt x => inv_buy_text cur (BuyOpt_InvBuy x)
  | InvTransaction_BuyOther x => inv_buy_text cur (BuyOther_InvBuy x)
  | InvTransaction_BuyStock x => inv_buy_text cur (BuyStock_InvBuy x)
  | InvTransaction_ClosureOpt x =>
      inv_tran_text (ClosureOpt_InvTran x) ++ enum_text enum_optAction (ClosureOpt_OptAction x) ++ sp ++
      amount_string (ClosureOpt_Units x) ++ bs " contracts (" ++ fmt_d (ClosureOpt_ShPerCtrct x) ++ bs " shares each)" ++ nl
  | InvTransaction_Income x =>
      inv_tran_text (Income_InvTran x) ++ sp ++ enum_text enum_incomeType (Income_IncomeType x) ++ sp ++
      amount_string (Income_Total x) ++ sp ++ currency_or cur (Income_Currency x) ++ bs " (" ++ sec_text (Income_SecID x) ++ bs ")" ++ nl
  | InvTransaction_InvExpense x =>
      inv_tran_text (InvExpense_InvTran x) ++ sp ++ amount_string (InvExpense_Total x) ++ sp ++
      currency_or cur (InvExpense_Currency x) ++ bs " (" ++ sec_text (InvExpense_SecID x) ++ bs ")" ++ nl
  | InvTransaction_JrnlFund x =>
      inv_tran_text (JrnlFund_InvTran x) ++ sp ++ amount_string (JrnlFund_Total x) ++ sp ++ cur ++ bs " (" ++
      sub (JrnlFund_SubAcctFrom x) ++ bs " -> " ++ sub (JrnlFund_SubAcctTo x) ++ bs ")" ++ nl
  | InvTransaction_JrnlSec x =>
      inv_tran_text (JrnlSec_InvTran x) ++ sp ++ amount_string (JrnlSec_Units x) ++ sp ++ sec_text (JrnlSec_SecID x) ++ bs " (" ++
      sub (JrnlSec_SubAcctFrom x) ++ bs " -> " ++ sub (JrnlSec_SubAcctTo x) ++ bs ")" ++ nl
  | InvTransaction_MarginInterest x =>
      inv_tran_text (MarginInterest_InvTran x) ++ sp ++ amount_string (MarginInterest_Total x) ++ sp ++
      currency_or cur (MarginInterest_Currency x) ++ nl
  | InvTransaction_Reinvest x =>
      inv_tran_text (Reinvest_InvTran x) ++ sp ++ amount_string (Reinvest_Units x) ++ bs " (" ++ sec_text (Reinvest_SecID x) ++
      bs ")@" ++ amount_string (Reinvest_UnitPrice x) ++ sp ++ currency_or cur (Reinvest_Currency x) ++ bs " (Total: " ++
      amount_string (Reinvest_Total x) ++ bs ")" ++ nl
  | InvTransaction_RetOfCap x =>
      inv_tran_text (RetOfCap_InvTran x) ++ sp ++ amount_string (RetOfCap_Total x) ++ sp ++
      currency_or cur (RetOfCap_Currency x) ++ bs " (" ++ sec_text (RetOfCap_SecID x) ++ bs ")" ++ nl
  | InvTransaction_SellDebt x => inv_sell_text cur (SellDebt_InvSell x)
  | InvTransaction_SellMF x => inv_sell_text cur (SellMF_InvSell x)
  | InvTransaction_SellOpt x => inv_sell_text cur (SellOpt_InvSell x)
  | InvTransaction_SellOther x => inv_sell_text cur (SellOther_InvSell x)
  | InvTransaction_SellStock x => inv_sell_text cur (SellStock_InvSell x)
  | InvTransaction_Split x =>
      inv_tran_text (Split_InvTran x) ++ sp ++ fmt_d (Split_Numerator x) ++ bs "/" ++ fmt_d (Split_Denominator x) ++ sp ++
      amount_string (Split_OldUnits x) ++ bs " -> " ++ amount_string (Split_NewUnits x) ++ bs " shares of " ++
      sec_text (Split_SecID x) ++ bs " (" ++ amount_string (Split_FracCash x) ++ sp ++ currency_or cur (Split_Currency x) ++
      bs " for fractional shares)" ++ nl
  | InvTransaction_Transfer x =>
      inv_tran_text (Transfer_InvTran x) ++ sp ++ amount_string (Transfer_Units x) ++ bs " (" ++ sec_text (Transfer_SecID x) ++
      bs ") " ++ enum_text enum_tferAction (Transfer_TferAction x) ++ nl
  end.

(** invtransactions.go:64-167. *)
Definition print_inv (r : Response) : io unit :=
  match sl_invstmt (rs_slots r) with
  | [] => println (bs "No investment messages received")
  | MsgInvStatementResponse s :: _ =>
      let cur := InvStatementResponse_CurDef s in
      match InvStatementResponse_InvBal s with
      | None => Panic
      | Some b =>
          let cash := InvBalance_AvailCash b in
          (if rat_is_int cash && negb (big_int64 (Qnum (Qred cash)) =? 0)%Z
           then print (balance_text cash cur (InvStatementResponse_DtAsOf s)) else Return tt) ~;
          match InvStatementResponse_InvTranList s with
          | None => Panic
          | Some l =>
              each (InvTranList_BankTransactions l) (fun bt =>
                print ([chr 10] ++ bs "Bank Transactions for " ++
                       enum_text enum_subAcctType (InvBankTransaction_SubAcctFund bt) ++ bs " subaccount:" ++ [chr 10]) ~;
                each (InvBankTransaction_Transactions bt) (print_transaction cur)) ~;
              print ([chr 10] ++ bs "Investment Transactions:" ++ [chr 10]) ~;
              each (InvTranList_InvTransactions l) (fun t => print (inv_transaction_text cur t))
          end
      end
  | _ => Return tt
  end.

(** invTransactions, invtransactions.go:24-168. *)
Definition transactions_inv (m : machine) (st : settings) : io unit :=
  cq <~ new_request m st;
  uid <~ new_uid m;
  ask_and_check m None st (fst cq) (snd cq (inv_message st uid)) print_inv.

(** ** detect-settings *)

(** detect_settings.go:33-39. *)
Definition app_ids : list str := [bs "OFXGO"; bs "QWIN"; bs "QMOFX"; bs "QB"; bs "Money"].

(** detect_settings.go:41-79. *)
Definition app_versions : list (str * list str) :=
  [(bs "OFXGO", [bs "0001"]);
   (bs "QWIN", [bs "2600"; bs "2500"; bs "2400"; bs "2300"; bs "2200"; bs "2100"; bs "2000"; bs "1900"; bs "1800";
                bs "1700"; bs "1600"; bs "1500"; bs "1400"]);
   (bs "QMOFX", [bs "1700"; bs "1600"; bs "1500"; bs "1400"]);
   (bs "QB", [bs "1800"; bs "1700"; bs "1600"; bs "1500"]);
   (bs "Money", [bs "1600"; bs "1500"; bs "1400"; bs "1200"; bs "1100"])].

(** Map access: a missing key has no versions. *)
Fixpoint versions_of (id : str) (l : list (str * list str)) : list str :=
  match l with
  | [] => []
  | (i, v) :: l => if str_eqb i id then v else versions_of id l
  end.

(** detect_settings.go:81-93. *)
Definition try_versions : list str :=
  [bs "203"; bs "103"; bs "200"; bs "201"; bs "202"; bs "210"; bs "211"; bs "102"; bs "151"; bs "160"; bs "220"].

(** tryProfile, detect_settings.go:125-170. *)
Definition try_profile (m : machine) (st : settings) (id ver version : str) (noindent : bool) : io bool :=
  match enum_new enum_ofxVersion version with
  | (_, false) => println (bs "Error creating new OfxVersion enum: " ++ m_error m (EPlain (bs "version"))) ~; Exit 1
  | (v, true) =>
      let c := get_client (st_serverURL st) (mkBasicClient v id ver noindent false [] None) in
      uid <~ new_uid m;
      let q := empty_request st (profile_message uid (unix_epoch m)) in
      x <~ ask m c q;
      match snd (fst x) with
      | None => Return true
      | Some _ =>
          let q := snd x in
          let s := rq_signon q in
          let q := mkRequest (rq_url q) (rq_version q)
            (mkSignonRequest (SignonRequest_DtClient s) anonymous anonymous (SignonRequest_UserKey s)
               (SignonRequest_GenUserKey s) (SignonRequest_Language s) (SignonRequest_Org s) (SignonRequest_Fid s)
               (SignonRequest_AppID s) (SignonRequest_AppVer s) (SignonRequest_ClientUID s))
            (rq_slots q) (rq_indent q) (rq_cr q) in
          y <~ ask m c q;
          Return match snd (fst y) with None => true | Some _ => false end
      end
  end.

Definition show_bool (b : bool) : str := if b then bs "true" else bs "false".

(** A loop whose body takes and returns the counter. *)
Fixpoint each_counting {A} (l : list A) (n : Z) (f : Z -> A -> io Z) : io Z :=
  match l with
  | [] => Return n
  | x :: l => n <~ f n x; each_counting l n f
  end.

(** time.Duration(delay) * time.Millisecond, detect_settings.go:115: the number
    of nanoseconds as an int64. *)
Definition duration_ms (delay : N) : Z := int64_wrap (int64_wrap (Z.of_N delay) * 1000000).

(** The body of the innermost loop, detect_settings.go:101-116. *)
Definition attempt (m : machine) (st : settings) (n : Z) (id ver version : str) (noindent : bool) : io Z :=
  ok <~ try_profile m st id ver version noindent;
  if (ok : bool) then
    println (bs "The following settings were found to work:") ~;
    println (bs "AppID: " ++ id) ~;
    println (bs "AppVer: " ++ ver) ~;
    println (bs "OFX Version: " ++ version) ~;
    println (bs "noindent: " ++ show_bool noindent) ~;
    Exit 0
  else
    let n := (n + 1)%Z in
    println (bs "Attempt " ++ fmt_d n ++ bs " failed (" ++ id ++ bs " " ++ ver ++ bs " " ++ version ++
             (if noindent then bs " noindent" else []) ++ bs "), trying again after " ++ fmt_d (Z.of_N (st_delay st)) ++
             bs "ms...") ~;
    Sleep (duration_ms (st_delay st)) (Return n).

(** detectSettings, detect_settings.go:95-121. *)
Definition detect_settings (m : machine) (st : settings) : io unit :=
  each_counting app_ids 0 (fun n id =>
    each_counting (versions_of id app_versions) n (fun n ver =>
      each_counting try_versions n (fun n version =>
        each_counting [false; true] n (fun n noindent => attempt m st n id ver version noindent)))) ~;
  Return tt.

(** ** main *)

(** command.go:10-16 *)
Record command := mkCommand {
  cmd_name : str;
  cmd_description : str;
  cmd_flags : flags;
  cmd_check : machine -> settings -> io (bool * settings);
  cmd_do : machine -> settings -> io unit
}.

(** main.go:9-19 and the variables of type command. *)
Definition commands : list command :=
  [mkCommand (bs "download-profile") (bs "Download a FI profile to a file")
     (server_flags ++ [f_filename]) check_profile_flags download_profile;
   mkCommand (bs "get-accounts") (bs "List accounts at your financial institution")
     server_flags check_server_flags get_accounts;
   mkCommand (bs "download-bank") (bs "Download a bank account statement to a file")
     (server_flags ++ [f_filename; f_bankid; f_acctid; f_accttype]) check_download_flags download_bank;
   mkCommand (bs "download-cc") (bs "Download a credit card account statement to a file")
     (server_flags ++ [f_filename; f_acctid]) check_download_flags download_cc;
   mkCommand (bs "download-inv") (bs "Download a investment account statement to a file")
     (server_flags ++ [f_filename; f_acctid; f_brokerid]) check_download_flags download_inv;
   mkCommand (bs "transactions-bank") (bs "Print bank transactions and balance")
     (server_flags ++ [f_bankid; f_acctid; f_accttype]) check_server_flags transactions_bank;
   mkCommand (bs "transactions-cc") (bs "Print credit card transactions and balance")
     (server_flags ++ [f_acctid]) check_server_flags transactions_cc;
   mkCommand (bs "transactions-inv") (bs "Print investment transactions")
     (server_flags ++ [f_acctid; f_brokerid]) check_server_flags transactions_inv;
   mkCommand (bs "detect-settings") (bs "Attempt to guess client settings needed for a particular financial institution")
     detect_flags check_server_flags detect_settings].

(** usage, main.go:21-41. *)
Definition usage : io unit :=
  println (bs "The ofxgo command-line client provides a simple interface to" ++ [chr 10] ++
           bs "query, parse, and display financial data via the OFX specification." ++ [chr 10; chr 10] ++
           bs "Usage:" ++ [chr 10; chr 9] ++ bs "ofx command [arguments]" ++ [chr 10; chr 10] ++
           bs "The commands are:") ~;
  let maxlen := fold_left (fun n c => Nat.max n (length (cmd_name c))) commands 0 in
  each commands (fun c => print (bs "    " ++ pad_right maxlen (cmd_name c) ++ bs "    " ++ cmd_description c ++ [chr 10])).

(** runCmd, main.go:43-58. The error of Parse is never returned, as the flag sets
    are made with ExitOnError; the flags' defaults are printed to standard error. *)
Definition run_cmd (m : machine) (c : command) (args : list str) : io unit :=
  st <~ parse_flags (cmd_flags c) args;
  r <~ cmd_check c m st;
  if fst r then cmd_do c m (snd r)
  else print [chr 10] ~; print (bs "Usage of " ++ cmd_name c ++ bs ":" ++ [chr 10]) ~; Exit 1.

Fixpoint find_command (name : str) (l : list command) : option command :=
  match l with
  | [] => None
  | c :: l => if str_eqb (cmd_name c) name then Some c else find_command name l
  end.

(** main, main.go:60-82. [args] are the arguments after the program's name. *)
Definition main (m : machine) (args : list str) : io unit :=
  match args with
  | [] => print (bs "Error: Please supply a sub-command. Usage:" ++ [chr 10; chr 10]) ~; usage ~; Exit 1
  | name :: rest =>
      match find_command name commands with
      | Some c => run_cmd m c rest ~; Exit 0
      | None =>
          if existsb (str_eqb name) [bs "-h"; bs "-help"; bs "--help"; bs "help"] then usage
          else println (bs "Error: Invalid sub-command. Usage:") ~; usage ~; Exit 1
      end
  end.
