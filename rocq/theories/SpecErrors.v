(** What a failing command of the tool says. *)
From Coq Require Import QArith.
From Verif Require Import GoStr SpecStr GoNum GoTime Types Enums EnumTables Records Common Messages Codec Document Wire Url Clients
  SpecClients Accessors Cli SpecCli.
Close Scope Q_scope.

Definition line (s : str) : str := s ++ [chr 10].

(** A complaint about a flag without a value. *)
Definition if_missing (n d : str) (l : list (str * str)) (s : str) : str :=
  match value_of n d l with [] => line s | _ => [] end.

Definition no_url (l : list (str * str)) : str := if_missing (bs "url") [] l (bs "Error: Server URL empty").
(** The profile can be asked for anonymously. *)
Definition no_user (name : str) (l : list (str * str)) : str :=
  if str_eqb name (bs "download-profile") then [] else if_missing (bs "username") [] l (bs "Error: Username empty").
Definition no_file (name : str) (l : list (str * str)) : str :=
  if existsb (str_eqb name) downloads then if_missing (bs "filename") (bs "./response.ofx") l (bs "Error: Filename empty") else [].

(** The password is asked for if there is none, but a server and a user. *)
Definition password_prompt (l : list (str * str)) : str :=
  match value_of (bs "url") [] l, value_of (bs "username") [] l, value_of (bs "password") [] l with
  | _ :: _, _ :: _, [] => bs "Password for " ++ value_of (bs "username") [] l ++ bs ": "
  | _, _, _ => []
  end.

(** The text of an error. *)
Definition told (m : machine) (t : str) : Prop := exists err, t = m_error m err.

(** A complaint about a password that could not be read. *)
Inductive no_password (m : machine) (h : list io_event) : str -> Prop :=
| np_none : ~ In (EPrompt None) h -> no_password m h []
| np_some t : In (EPrompt None) h -> told m t -> no_password m h (line (bs "Error reading password: " ++ t)).

(** The flags' complaints, all of them, before the usage. *)
Inductive flags_why (m : machine) (name : str) (l : list (str * str)) (h : list io_event) : str -> Prop :=
| fw_all pw : no_password m h pw -> no_url l ++ no_user name l ++ pw ++ no_file name l <> [] ->
    flags_why m name l h (no_url l ++ no_user name l ++ pw ++ no_file name l ++ [chr 10] ++ line (bs "Usage of " ++ name ++ bs ":")).

(** What is asked for. *)
Definition wanted (name : str) : str :=
  if str_eqb name (bs "download-profile") then bs "FI profile"
  else if str_eqb name (bs "get-accounts") then bs "account information" else bs "account statement".

(** What the command [name] with the flags [l] says after the history [h]: the first
    thing that went wrong. *)
Inductive why (m : machine) (name : str) (l : list (str * str)) (h : list io_event) : str -> Prop :=
| w_flags s : flags_why m name l h s -> network h = [] -> why m name l h s
| w_version v t : enum_new enum_ofxVersion (value_of (bs "ofxversion") (bs "203") l) = (v, false) -> told m t -> network h = [] ->
    why m name l h (line (bs "Error creating new OfxVersion enum: " ++ t))
| w_type v t : In name [bs "download-bank"; bs "transactions-bank"] ->
    enum_new enum_acctType (value_of (bs "accttype") (bs "CHECKING") l) = (v, false) -> told m t -> network h = [] ->
    why m name l h (line (bs "Error parsing accttype: " ++ t))
| w_uid r t : In (ERand r) h -> random_uid r = None -> told m t -> network h = [] ->
    why m name l h (line (bs "Error creating uid for transaction: " ++ t))
| w_download t : In name downloads -> (forall rp, last_answer (network h) = Some rp -> rp_code rp <> 200%Z) -> told m t ->
    why m name l h (line (bs "Error requesting " ++ wanted name ++ bs ": " ++ t))
| w_create t : In name downloads -> In (ECreate (value_of (bs "filename") (bs "./response.ofx") l) false) h -> told m t ->
    why m name l h (line (bs "Error creating file to write to: " ++ t))
| w_save b t : In name downloads -> In (ESave b false) h -> told m t ->
    why m name l h (line (bs "Error writing response to file: " ++ t))
| w_query t : In name queries -> name <> bs "transactions-inv" -> (forall r, ~ answered (m_env m) (network h) r) -> told m t ->
    why m name l h (line (bs "Error requesting " ++ wanted name ++ bs ": " ++ t))
| w_silent : name = bs "transactions-inv" -> (forall r, ~ answered (m_env m) (network h) r) -> why m name l h []
| w_status r s meaning : In name queries -> answered (m_env m) (network h) r -> s = SignonResponse_Status (rs_signon r) ->
    Status_Code s <> 0%Z -> status_code_meaning s = Some meaning ->
    why m name l h (line (bs "Nonzero signon status (" ++ fmt_d (Status_Code s) ++ bs ": " ++ meaning ++ bs ") with message: " ++ Status_Message s)).
