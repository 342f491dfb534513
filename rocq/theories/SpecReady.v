(** When the tool sends its request (C95). *)
From Verif Require Import GoStr SpecStr Types EnumTables SpecValid SpecUrl Cli SpecCli SpecFlags.

(** One of these names, possibly with white space around it. *)
Definition one_of (l : list str) (s : str) : Prop := exists n, In n l /\ trims_to s n.

Definition version_names : list str :=
  [bs "102"; bs "103"; bs "151"; bs "160"; bs "200"; bs "201"; bs "202"; bs "203"; bs "210"; bs "211"; bs "220"].
Definition type_names : list str := [bs "CHECKING"; bs "SAVINGS"; bs "MONEYMRKT"; bs "CREDITLINE"; bs "CD"].

(** The flags that are right for the command [name]. *)
Record flags_right (name : str) (l : list (str * str)) : Prop := {
  fr_url : exists host path, names (value_of (bs "url") [] l) host path;
  fr_login : (name = bs "download-profile" /\ value_of (bs "username") [] l = []) \/
             (len_between 1 32 (value_of (bs "username") [] l) /\ (length (value_of (bs "password") [] l) <= 32)%nat);
  fr_version : one_of version_names (value_of (bs "ofxversion") (bs "203") l);
  fr_appid : (length (value_of (bs "appid") (bs "QWIN") l) <= 5)%nat;
  fr_appver : (length (value_of (bs "appver") (bs "2400") l) <= 4)%nat;
  fr_file : In name downloads -> value_of (bs "filename") (bs "./response.ofx") l <> [];
  fr_bank : In name [bs "download-bank"; bs "transactions-bank"] ->
    value_of (bs "bankid") [] l <> [] /\ value_of (bs "acctid") [] l <> [] /\
    one_of type_names (value_of (bs "accttype") (bs "CHECKING") l)
}.

(** A password that is asked for is typed and can be sent, and there are random
    numbers. *)
Definition surroundings_work (h : list io_event) : Prop :=
  (forall a, In (EPrompt a) h -> exists p, a = Some p /\ len_between 1 32 p) /\
  (forall r, In (ERand r) h -> exists b, r = RandRead b 16).

(** The first random number that is asked for is there. *)
Definition random_at_first (h : list io_event) : Prop :=
  forall h1 r h2, h = h1 ++ ERand r :: h2 -> (forall r', ~ In (ERand r') h1) -> exists b, r = RandRead b 16.
