(** Specification of the command lines of the tool: which are accepted and what
    they say. *)
From Verif Require Import GoStr SpecStr Cli SpecAmountText SpecCli.

(** ** The flags of each command *)

Definition server_texts : list str :=
  [bs "url"; bs "username"; bs "password"; bs "org"; bs "fid"; bs "appid"; bs "appver"; bs "ofxversion";
   bs "clientuid"; bs "useragent"].

(** The commands with their flags that take a text. *)
Definition command_texts : list (str * list str) :=
  [(bs "download-profile", server_texts ++ [bs "filename"]);
   (bs "get-accounts", server_texts);
   (bs "download-bank", server_texts ++ [bs "filename"; bs "bankid"; bs "acctid"; bs "accttype"]);
   (bs "download-cc", server_texts ++ [bs "filename"; bs "acctid"]);
   (bs "download-inv", server_texts ++ [bs "filename"; bs "acctid"; bs "brokerid"]);
   (bs "transactions-bank", server_texts ++ [bs "bankid"; bs "acctid"; bs "accttype"]);
   (bs "transactions-cc", server_texts ++ [bs "acctid"]);
   (bs "transactions-inv", server_texts ++ [bs "acctid"; bs "brokerid"]);
   (bs "detect-settings", [bs "url"; bs "username"; bs "password"; bs "org"; bs "fid"])].

Definition no (v : str) : Prop := In v [bs "0"; bs "f"; bs "F"; bs "false"; bs "FALSE"; bs "False"].

(** The command has this flag and the flag takes this value. *)
Inductive takes (name : str) : str -> str -> Prop :=
| takes_text n v texts : In (name, texts) command_texts -> In n texts -> takes name n v
| takes_switch n v : name <> bs "detect-settings" -> switch n -> yes v \/ no v -> takes name n v
| takes_delay v k : name = bs "detect-settings" -> whole_text v k -> (k < 2 ^ 64)%Z -> takes name (bs "delay") v.

Definition knows (name n : str) : Prop := exists v, takes name n v.

(** ** Command lines *)

(** The arguments begin with a flag, its value and other arguments. *)
Inductive flag_first : list str -> str -> str -> list str -> Prop :=
| ff_equals d n v rest : dashes d -> flag_name n -> flag_first ((d ++ n ++ bs "=" ++ v) :: rest) n v rest
| ff_switch d n rest : dashes d -> flag_name n -> switch n -> flag_first ((d ++ n) :: rest) n (bs "true") rest
| ff_value d n v rest : dashes d -> flag_name n -> ~ switch n -> flag_first ((d ++ n) :: v :: rest) n v rest.

(** The first argument names a flag, with a value or without. *)
Inductive named_first : list str -> str -> Prop :=
| nf_equals d n v rest : dashes d -> flag_name n -> named_first ((d ++ n ++ bs "=" ++ v) :: rest) n
| nf_plain d n rest : dashes d -> flag_name n -> named_first ((d ++ n) :: rest) n.

(** Dashes without a name behind them. *)
Definition nameless (s : str) : Prop :=
  (exists t, s = bs "-=" ++ t) \/ (exists t, s = bs "--=" ++ t) \/ (exists t, s = bs "---" ++ t).

Inductive reading :=
| Accepted (l : list (str * str))
| Helped
| Refused.

Definition given (p : str * str) (r : reading) : reading :=
  match r with Accepted l => Accepted (p :: l) | r => r end.

(** How the arguments of a command are read: flag by flag up to the first
    argument that is no flag. *)
Inductive command_line (name : str) : list str -> reading -> Prop :=
| cl_end : command_line name [] (Accepted [])
| cl_other s rest : (s = [] \/ hd (chr 0) s <> "-"%char \/ s = bs "-" \/ s = bs "--") ->
    command_line name (s :: rest) (Accepted [])
| cl_flag args n v rest r : flag_first args n v rest -> takes name n v -> command_line name rest r ->
    command_line name args (given (n, v) r)
| cl_value args n v rest : flag_first args n v rest -> knows name n -> ~ takes name n v -> command_line name args Refused
| cl_missing d n : dashes d -> flag_name n -> knows name n -> ~ switch n -> command_line name [d ++ n] Refused
| cl_help args n : named_first args n -> ~ knows name n -> In n [bs "h"; bs "help"] -> command_line name args Helped
| cl_unknown args n : named_first args n -> ~ knows name n -> ~ In n [bs "h"; bs "help"] -> command_line name args Refused
| cl_nameless s rest : nameless s -> command_line name (s :: rest) Refused.

(** ** What the flags say *)

(** The values of flags that are not given. *)
Definition flag_default (n : str) : str :=
  if str_eqb n (bs "appid") then bs "QWIN"
  else if str_eqb n (bs "appver") then bs "2400"
  else if str_eqb n (bs "ofxversion") then bs "203"
  else if str_eqb n (bs "filename") then bs "./response.ofx"
  else if str_eqb n (bs "accttype") then bs "CHECKING"
  else [].

(** Only the last value of each flag counts; a missing flag has its default. *)
Definition same_values (l l' : list (str * str)) : Prop :=
  (forall n, value_of n (flag_default n) l = value_of n (flag_default n) l' \/ switch n \/ n = bs "delay") /\
  (forall n, switch n -> turned_on n l = turned_on n l') /\
  (forall d, delay_of l d <-> delay_of l' d).

(** ** No command *)

Definition help_word (name : str) : Prop := In name [bs "-h"; bs "-help"; bs "--help"; bs "help"].
Definition is_print (x : io_event) : Prop := match x with EPrint _ => True | _ => False end.
