(** What is said about the command line tool. *)
From Coq Require Import QArith.
From Verif Require Import GoStr SpecStr GoNum GoTime Types Enums EnumTables Records Common Messages Codec Document Utf8 Wire Url Clients
  SpecClients Accessors SpecLists SpecAmountText Cli SpecUrl SpecValid.
Close Scope Q_scope.

(** ** Histories *)

Inductive io_event :=
| ENet (x : event)
| EPrint (s : str)
| ESleep (ns : Z)
| EClock (t : gotime)
| ERand (r : rand_result)
| EPrompt (a : option str)
| ECreate (name : str) (ok : bool)
| ESave (b : str) (ok : bool).

(** How a program ends: with a value, by os.Exit or with a panic. *)
Inductive ended (A : Type) :=
| Finished (a : A)
| Exited (code : Z)
| Crashed.
Arguments Finished {A} a.
Arguments Exited {A} code.
Arguments Crashed {A}.

(** [io_runs p l e]: [p] can do [l] and then end with [e]. *)
Inductive io_runs {A} : io A -> list io_event -> ended A -> Prop :=
| ir_return a : io_runs (Return a) [] (Finished a)
| ir_exit c : io_runs (Exit c) [] (Exited c)
| ir_panic : io_runs Panic [] Crashed
| ir_print s k l e : io_runs k l e -> io_runs (Print s k) (EPrint s :: l) e
| ir_sleep n k l e : io_runs k l e -> io_runs (Sleep n k) (ESleep n :: l) e
| ir_clock k x l e : io_runs (k x) l e -> io_runs (Clock k) (EClock x :: l) e
| ir_rand k x l e : io_runs (k x) l e -> io_runs (Rand k) (ERand x :: l) e
| ir_prompt k x l e : io_runs (k x) l e -> io_runs (Prompt k) (EPrompt x :: l) e
| ir_create n k x l e : io_runs (k x) l e -> io_runs (Create n k) (ECreate n x :: l) e
| ir_save b k x l e : io_runs (k x) l e -> io_runs (Save b k) (ESave b x :: l) e
| ir_send p k tr x l e : runs p tr x -> io_runs (k x) l e -> io_runs (Send p k) (map ENet tr ++ l) e
| ir_ask p k tr x l e : runs p tr x -> io_runs (k x) l e -> io_runs (Ask p k) (map ENet tr ++ l) e.

(** The network operations of a history and what it prints. *)
Definition network (l : list io_event) : list event := flat_map (fun x => match x with ENet e => [e] | _ => [] end) l.
Definition printed (l : list io_event) : str := flat_map (fun x => match x with EPrint s => s | _ => [] end) l.
Definition saved (l : list io_event) : str := flat_map (fun x => match x with ESave b _ => b | _ => [] end) l.

(** The exit status: that of the shell if there is no os.Exit. Go's status after
    a panic is 2. *)
Definition status {A} (e : ended A) : Z := match e with Finished _ => 0 | Exited c => c | Crashed => 2 end.

(** ** Command lines *)

(** Flags that need no value. *)
Definition switch (name : str) : Prop := In name [bs "noindent"; bs "carriagereturn"; bs "dryrun"].

Definition flag_name (s : str) : Prop :=
  s <> [] /\ hd (chr 0) s <> "-"%char /\ ~ In "="%char s.

Definition dashes (s : str) : Prop := s = bs "-" \/ s = bs "--".

(** The arguments as package flag documents them: -flag, -flag=x and -flag x with
    one or two dashes, the latter only for flags that need a value; up to the
    first other argument or the argument --. *)
Inductive flag_args : list str -> list (str * str) -> Prop :=
| fa_end : flag_args [] []
| fa_other s rest : (s = [] \/ hd (chr 0) s <> "-"%char \/ s = bs "-" \/ s = bs "--") -> flag_args (s :: rest) []
| fa_equals d n v rest l : dashes d -> flag_name n -> flag_args rest l ->
    flag_args ((d ++ n ++ bs "=" ++ v) :: rest) ((n, v) :: l)
| fa_switch d n rest l : dashes d -> flag_name n -> switch n -> flag_args rest l ->
    flag_args ((d ++ n) :: rest) ((n, bs "true") :: l)
| fa_value d n v rest l : dashes d -> flag_name n -> ~ switch n -> flag_args rest l ->
    flag_args ((d ++ n) :: v :: rest) ((n, v) :: l).

(** The last value given for a flag. *)
Definition last_given (n v : str) (l : list (str * str)) : Prop :=
  exists l1 l2, l = l1 ++ (n, v) :: l2 /\ ~ In n (map fst l2).

Definition yes (v : str) : Prop := In v [bs "1"; bs "t"; bs "T"; bs "true"; bs "TRUE"; bs "True"].

(** ** Answers *)

(** The last answer of the history has status 200 and is a valid response. *)
Definition answered (e : env) (tr : list event) (r : Response) : Prop :=
  exists rp, last_answer tr = Some rp /\ rp_code rp = 200%Z /\ decode_response e (rp_body rp) = Some r /\ response_valid r = None.

(** ... and accepts the login. *)
Definition accepted (e : env) (tr : list event) (r : Response) : Prop :=
  answered e tr r /\ Status_Code (SignonResponse_Status (rs_signon r)) = 0%Z.

(** Everything that is sent is this document. *)
Definition carries (tr : list event) (document : str -> Prop) : Prop :=
  (forall r a, In (EHttp r a) tr -> hr_body r = [] \/ document (hr_body r)) /\
  (forall l h ok b ok' l', tr = l ++ EWrite h ok :: EWrite b ok' :: l' -> document b).

(** ** detect-settings *)

(** Applications with their versions, OFX versions, and whether requests are sent
    without indentation, the most promising ones first. *)
Definition detect_apps : list (str * list str) :=
  [(bs "OFXGO", [bs "0001"]);
   (bs "QWIN", [bs "2600"; bs "2500"; bs "2400"; bs "2300"; bs "2200"; bs "2100"; bs "2000"; bs "1900"; bs "1800";
                bs "1700"; bs "1600"; bs "1500"; bs "1400"]);
   (bs "QMOFX", [bs "1700"; bs "1600"; bs "1500"; bs "1400"]);
   (bs "QB", [bs "1800"; bs "1700"; bs "1600"; bs "1500"]);
   (bs "Money", [bs "1600"; bs "1500"; bs "1400"; bs "1200"; bs "1100"])].
Definition detect_versions : list (str * N) :=
  [(bs "203", OfxVersion203); (bs "103", OfxVersion103); (bs "200", OfxVersion200); (bs "201", OfxVersion201);
   (bs "202", OfxVersion202); (bs "210", OfxVersion210); (bs "211", OfxVersion211); (bs "102", OfxVersion102);
   (bs "151", OfxVersion151); (bs "160", OfxVersion160); (bs "220", OfxVersion220)].

Record combination := mkCombination { cb_app : str; cb_appver : str; cb_version : str * N; cb_noindent : bool }.

Definition combinations : list combination :=
  flat_map (fun a => flat_map (fun v => flat_map (fun o => map (fun n => mkCombination (fst a) v o n) [false; true])
    detect_versions) (snd a)) detect_apps.

(** The client with these settings, and the profile request with these
    credentials. *)
Definition combination_client (st : settings) (x : combination) : client :=
  get_client (st_serverURL st) (mkBasicClient (snd (cb_version x)) (cb_app x) (cb_appver x) (cb_noindent x) false [] None).

Definition profile_query (m : machine) (st : settings) (user pass uid : str) : Request :=
  mkRequest (st_serverURL st) 0
    (mkSignonRequest zero_time user pass [] false [] (st_org st) (st_fid st) [] [] (st_clientUID st))
    (mkSlots [] [] [] [] [] [] [] [] [] [] [] [] [MsgProfileRequest (mkProfileRequest uid [] [] [] (unix_epoch m))] [])
    false false.

(** One request: what is sent, whether it works, and when something is sent at
    all: the URL must name a server and the credentials must fit. *)
Definition exchanged (m : machine) (st : settings) (x : combination) (q : Request) (t : gotime) (tr : list event) (ok : bool) : Prop :=
  carries tr (client_document t (combination_client st x) q) /\ (ok = true <-> exists r, answered (m_env m) tr r) /\
  (tr <> [] <-> (exists host path, names (rq_url q) host path) /\
    len_between 1 32 (SignonRequest_UserID (rq_signon q)) /\ len_between 1 32 (SignonRequest_UserPass (rq_signon q))).

(** One attempt: with the user's credentials and, if that fails, anonymously. *)
Definition attempted (m : machine) (st : settings) (x : combination) (l : list io_event) (ok : bool) : Prop :=
  exists r uid t1 tr1 ok1, random_uid r = Some uid /\
    exchanged m st x (profile_query m st (st_username st) (st_password st) uid) t1 tr1 ok1 /\
    (ok1 = true /\ ok = true /\ l = ERand r :: EClock t1 :: map ENet tr1 \/
     ok1 = false /\ exists t2 tr2,
       exchanged m st x (profile_query m st (bs "anonymous00000000000000000000000") (bs "anonymous00000000000000000000000") uid) t2 tr2 ok /\
       l = ERand r :: EClock t1 :: map ENet tr1 ++ EClock t2 :: map ENet tr2).

Definition works_text (x : combination) : str :=
  bs "The following settings were found to work:" ++ [chr 10] ++
  bs "AppID: " ++ cb_app x ++ [chr 10] ++ bs "AppVer: " ++ cb_appver x ++ [chr 10] ++
  bs "OFX Version: " ++ fst (cb_version x) ++ [chr 10] ++
  bs "noindent: " ++ (if cb_noindent x then bs "true" else bs "false") ++ [chr 10].

(** The nanoseconds that are waited for a delay in milliseconds: a 64-bit number
    with sign. *)
Definition waits (delay : N) (ns : Z) : Prop :=
  (exists k, ns = Z.of_N delay * 1000000 + k * 2 ^ 64)%Z /\ (- 2 ^ 63 <= ns < 2 ^ 63)%Z.

(** The attempts with these combinations, the first of which has the number
    [k] + 1. *)
Inductive detection (m : machine) (st : settings) : Z -> list combination -> list io_event -> ended unit -> Prop :=
| det_none k : detection m st k [] [] (Finished tt)
| det_works k x xs l p : attempted m st x l true -> (forall y, In y p -> exists s, y = EPrint s) -> printed p = works_text x ->
    detection m st k (x :: xs) (l ++ p) (Exited 0)
| det_fails k x xs l s ns l' e : attempted m st x l false -> detection m st (k + 1)%Z xs l' e ->
    waits (st_delay st) ns ->
    s = bs "Attempt " ++ fmt_d (k + 1)%Z ++ bs " failed (" ++ cb_app x ++ bs " " ++ cb_appver x ++ bs " " ++ fst (cb_version x) ++
         (if cb_noindent x then bs " noindent" else []) ++ bs "), trying again after " ++ fmt_d (Z.of_N (st_delay st)) ++ bs "ms..." ++ [chr 10] ->
    detection m st k (x :: xs) (l ++ EPrint s :: ESleep ns :: l') e
| det_random k x xs r err : random_uid r = None ->
    detection m st k (x :: xs) [ERand r; EPrint (bs "Error creating uid for transaction: " ++ m_error m err ++ [chr 10])] (Exited 1).

(** ** Settings *)

(** The value of a flag: the last one given, or the default. *)
Definition value_of (n d : str) (l : list (str * str)) : str :=
  fold_left (fun d p => if str_eqb (fst p) n then snd p else d) l d.
Definition turned_on (n : str) (l : list (str * str)) : bool :=
  fold_left (fun d p => if str_eqb (fst p) n
                        then existsb (str_eqb (snd p)) [bs "1"; bs "t"; bs "T"; bs "true"; bs "TRUE"; bs "True"] else d) l false.

(** The delay in milliseconds: the last one given, or 500. *)
Definition delay_of (l : list (str * str)) (d : N) : Prop :=
  (~ In (bs "delay") (map fst l) /\ d = 500%N) \/
  exists v, last_given (bs "delay") v l /\ whole_text v (Z.of_N d) /\ (Z.of_N d < 2 ^ 64)%Z.

(** The help flags. *)
Definition helped (l : list (str * str)) : Prop := exists n, In n [bs "h"; bs "help"] /\ In n (map fst l).

(** Who logs in, and what happens before: the user and the password of the flags;
    if no password is given it is asked for; the profile can be asked for
    anonymously. *)
Inductive credentials (name : str) (l : list (str * str)) : list io_event -> str -> str -> Prop :=
| cr_given : value_of (bs "username") [] l <> [] -> value_of (bs "password") [] l <> [] ->
    credentials name l [] (value_of (bs "username") [] l) (value_of (bs "password") [] l)
| cr_asked p : value_of (bs "username") [] l <> [] -> value_of (bs "password") [] l = [] ->
    credentials name l [EPrint (bs "Password for " ++ value_of (bs "username") [] l ++ bs ": "); EPrompt (Some p)]
      (value_of (bs "username") [] l) p
| cr_anonymous : name = bs "download-profile" -> value_of (bs "username") [] l = [] ->
    credentials name l [] (bs "anonymous00000000000000000000000") (bs "anonymous00000000000000000000000").

(** The client and the request that the flags describe. *)
Inductive flag_client (l : list (str * str)) : client -> Prop :=
| flag_client_is v : enum_new enum_ofxVersion (value_of (bs "ofxversion") (bs "203") l) = (v, true) ->
    flag_client l (get_client (value_of (bs "url") [] l)
      (mkBasicClient v (value_of (bs "appid") (bs "QWIN") l) (value_of (bs "appver") (bs "2400") l)
         (turned_on (bs "noindent") l) (turned_on (bs "carriagereturn") l) (value_of (bs "useragent") [] l) None)).

Definition flag_request (l : list (str * str)) (user pass : str) (sl : Slots) : Request :=
  mkRequest (value_of (bs "url") [] l) 0
    (mkSignonRequest zero_time user pass [] false [] (value_of (bs "org") [] l) (value_of (bs "fid") [] l) [] []
       (value_of (bs "clientuid") [] l)) sl false false.

(** The message of each command. *)
Inductive command_message (m : machine) (l : list (str * str)) (uid : str) : str -> Slots -> Prop :=
| cm_bank name t : In name [bs "download-bank"; bs "transactions-bank"] ->
    enum_new enum_acctType (value_of (bs "accttype") (bs "CHECKING") l) = (t, true) ->
    command_message m l uid name
      (mkSlots [] [MsgStatementRequest (mkStatementRequest uid [] []
         (mkBankAcct (value_of (bs "bankid") [] l) [] (value_of (bs "acctid") [] l) t []) None None true false false)]
         [] [] [] [] [] [] [] [] [] [] [] [])
| cm_cc name : In name [bs "download-cc"; bs "transactions-cc"] ->
    command_message m l uid name
      (mkSlots [] [] [MsgCCStatementRequest (mkCCStatementRequest uid [] []
         (mkCCAcct (value_of (bs "acctid") [] l) []) None None true false false)]
         [] [] [] [] [] [] [] [] [] [] [])
| cm_inv name : In name [bs "download-inv"; bs "transactions-inv"] ->
    command_message m l uid name
      (mkSlots [] [] [] [] [MsgInvStatementRequest (mkInvStatementRequest uid [] []
         (mkInvAcct (value_of (bs "brokerid") [] l) (value_of (bs "acctid") [] l)) None None true true None true true true true false)]
         [] [] [] [] [] [] [] [] [])
| cm_profile :
    command_message m l uid (bs "download-profile")
      (mkSlots [] [] [] [] [] [] [] [] [] [] [] [] [MsgProfileRequest (mkProfileRequest uid [] [] [] zero_time)] [])
| cm_accounts :
    command_message m l uid (bs "get-accounts")
      (mkSlots [MsgAcctInfoRequest (mkAcctInfoRequest uid [] [] (unix_epoch m))] [] [] [] [] [] [] [] [] [] [] [] [] []).

(** Everything a command does before the clock is read and the request is made. *)
Inductive prepared (m : machine) (name : str) (l : list (str * str)) : list io_event -> client -> Request -> Prop :=
| prepared_by l1 user pass r uid c sl : credentials name l l1 user pass -> random_uid r = Some uid -> flag_client l c ->
    command_message m l uid name sl -> value_of (bs "url") [] l <> [] ->
    prepared m name l (l1 ++ [ERand r]) c (flag_request l user pass sl).

(** ** Downloads *)

Definition downloads : list str := [bs "download-profile"; bs "download-bank"; bs "download-cc"; bs "download-inv"].
Definition queries : list str := [bs "get-accounts"; bs "transactions-bank"; bs "transactions-cc"; bs "transactions-inv"].

(** The operations on files. *)
Definition file_event (x : io_event) : bool := match x with ECreate _ _ | ESave _ _ => true | _ => false end.

(** Nothing is printed, or only the prompt for the password. *)
Definition prompted (s : str) : Prop := s = [] \/ exists user, s = bs "Password for " ++ user ++ bs ": ".

(** The file operations and the exit status after these network operations. *)
Inductive download_ends (f : str) (tr : list event) : list io_event -> ended unit -> Prop :=
| de_no_answer : (forall rp, last_answer tr = Some rp -> rp_code rp <> 200%Z) -> download_ends f tr [] (Exited 1)
| de_no_file rp : last_answer tr = Some rp -> rp_code rp = 200%Z -> download_ends f tr [ECreate f false] (Exited 1)
| de_not_saved rp : last_answer tr = Some rp -> rp_code rp = 200%Z ->
    download_ends f tr [ECreate f true; ESave (rp_body rp) false] (Exited 1)
| de_saved rp : last_answer tr = Some rp -> rp_code rp = 200%Z ->
    download_ends f tr [ECreate f true; ESave (rp_body rp) true] (Exited 0).

(** ** What is printed *)

(** Text filled up with spaces to [n] characters. *)
Definition padded (n : nat) (s p : str) : Prop :=
  exists k, p = s ++ repeat " "%char k /\ (length (runes s) + k = n \/ k = 0 /\ n < length (runes s)).

Definition payee_name (t : Transaction) (name : str) : Prop :=
  (Transaction_Name t <> [] /\ name = Transaction_Name t) \/
  (Transaction_Name t = [] /\ exists p, Transaction_Payee t = Some p /\ name = Payee_Name p).

Definition shown_name (t : Transaction) (name : str) : Prop :=
  payee_name t name \/ (Transaction_Name t = [] /\ Transaction_Payee t = None /\ name = []).

(** One line: date, amount and currency, type, name and memo. *)
Inductive transaction_line (cur : str) (t : Transaction) : str -> Prop :=
| t_line name money kind type : shown_name t name ->
    padded 15 (amount_string (Transaction_TrnAmt t) ++ bs " " ++
               match Transaction_Currency t with Some c => Currency_CurSym c | None => cur end) money ->
    enum_string enum_trnType (Transaction_TrnType t) = Some type -> padded 11 type kind ->
    transaction_line cur t
      (date_string (Transaction_DtPosted t) ++ bs " " ++ money ++ bs " " ++ kind ++ bs " " ++ name ++
       (match Transaction_Memo t with [] => [] | memo => bs " - " ++ memo end) ++ [chr 10]).

Definition balance_line (bal : Q) (cur : str) (d : gotime) : str :=
  bs "Balance: " ++ amount_string bal ++ bs " " ++ cur ++ bs " (as of " ++ date_string d ++ bs ")" ++ [chr 10].

Definition statement_text (bal : Q) (cur : str) (d : gotime) (ts : list Transaction) (text : str) : Prop :=
  exists lines, Forall2 (transaction_line cur) ts lines /\
    text = balance_line bal cur d ++ bs "Transactions:" ++ [chr 10] ++ concat lines.

(** These texts stand in [s], in this order and without overlapping. *)
Inductive in_order : list str -> str -> Prop :=
| io_nil s : in_order [] s
| io_cons p ps a s : in_order ps s -> in_order (p :: ps) (a ++ p ++ s).

(** The currency that is shown for an amount with its own, optional, currency. *)
Definition used_currency (cur : str) (c : Currency) : str :=
  match currency_valid c with None => Currency_CurSym c | Some _ => cur end.

Definition enum_name (t : enum) (e : N) : str := match enum_string t e with Some s => s | None => [] end.

(** What is shown of an investment transaction, after its kind and date. *)
Definition buy_facts (cur : str) (b : InvBuy) : list str :=
  [amount_string (InvBuy_Units b); SecurityID_UniqueIDType (InvBuy_SecID b); SecurityID_UniqueID (InvBuy_SecID b);
   amount_string (InvBuy_UnitPrice b); used_currency cur (InvBuy_Currency b); amount_string (InvBuy_Total b)].
Definition sell_facts (cur : str) (b : InvSell) : list str :=
  [amount_string (InvSell_Units b); SecurityID_UniqueIDType (InvSell_SecID b); SecurityID_UniqueID (InvSell_SecID b);
   amount_string (InvSell_UnitPrice b); used_currency cur (InvSell_Currency b); amount_string (InvSell_Total b)].
Definition inv_facts (cur : str) (t : InvTransaction) : list str :=
  let sub e := enum_name enum_subAcctType e in
  let sec s := [SecurityID_UniqueIDType s; SecurityID_UniqueID s] in
  match t with
  | InvTransaction_BuyDebt x => buy_facts cur (BuyDebt_InvBuy x)
  | InvTransaction_BuyMF x => buy_facts cur (BuyMF_InvBuy x)
  | InvTransaction_BuyOpt x => buy_facts cur (BuyOpt_InvBuy x)
  | InvTransaction_BuyOther x => buy_facts cur (BuyOther_InvBuy x)
  | InvTransaction_BuyStock x => buy_facts cur (BuyStock_InvBuy x)
  | InvTransaction_ClosureOpt x =>
      [enum_name enum_optAction (ClosureOpt_OptAction x); amount_string (ClosureOpt_Units x); fmt_d (ClosureOpt_ShPerCtrct x)]
  | InvTransaction_Income x =>
      enum_name enum_incomeType (Income_IncomeType x) :: amount_string (Income_Total x) :: used_currency cur (Income_Currency x) :: sec (Income_SecID x)
  | InvTransaction_InvExpense x =>
      amount_string (InvExpense_Total x) :: used_currency cur (InvExpense_Currency x) :: sec (InvExpense_SecID x)
  | InvTransaction_JrnlFund x =>
      [amount_string (JrnlFund_Total x); cur; sub (JrnlFund_SubAcctFrom x); sub (JrnlFund_SubAcctTo x)]
  | InvTransaction_JrnlSec x =>
      amount_string (JrnlSec_Units x) :: sec (JrnlSec_SecID x) ++ [sub (JrnlSec_SubAcctFrom x); sub (JrnlSec_SubAcctTo x)]
  | InvTransaction_MarginInterest x => [amount_string (MarginInterest_Total x); used_currency cur (MarginInterest_Currency x)]
  | InvTransaction_Reinvest x =>
      amount_string (Reinvest_Units x) :: sec (Reinvest_SecID x) ++
      [amount_string (Reinvest_UnitPrice x); used_currency cur (Reinvest_Currency x); amount_string (Reinvest_Total x)]
  | InvTransaction_RetOfCap x =>
      amount_string (RetOfCap_Total x) :: used_currency cur (RetOfCap_Currency x) :: sec (RetOfCap_SecID x)
  | InvTransaction_SellDebt x => sell_facts cur (SellDebt_InvSell x)
  | InvTransaction_SellMF x => sell_facts cur (SellMF_InvSell x)
  | InvTransaction_SellOpt x => sell_facts cur (SellOpt_InvSell x)
  | InvTransaction_SellOther x => sell_facts cur (SellOther_InvSell x)
  | InvTransaction_SellStock x => sell_facts cur (SellStock_InvSell x)
  | InvTransaction_Split x =>
      [fmt_d (Split_Numerator x); fmt_d (Split_Denominator x); amount_string (Split_OldUnits x); amount_string (Split_NewUnits x)] ++
      sec (Split_SecID x) ++ [amount_string (Split_FracCash x); used_currency cur (Split_Currency x)]
  | InvTransaction_Transfer x =>
      amount_string (Transfer_Units x) :: sec (Transfer_SecID x) ++ [enum_name enum_tferAction (Transfer_TferAction x)]
  end.

(** A template with these texts in the places of its percent signs. *)
Fixpoint filled (template : str) (ps : list str) : str :=
  match template with
  | [] => []
  | c :: rest => if Ascii.eqb c "%" then match ps with p :: ps => p ++ filled rest ps | [] => filled rest [] end else c :: filled rest ps
  end.

(** How they are shown. There is no space between the date and the number of units
    that are bought, or the action on an option. *)
Definition inv_template (t : InvTransaction) : str :=
  match t with
  | InvTransaction_BuyDebt _ | InvTransaction_BuyMF _ | InvTransaction_BuyOpt _ | InvTransaction_BuyOther _ | InvTransaction_BuyStock _ =>
      bs "% (% %)@% % (Total: %)"
  | InvTransaction_ClosureOpt _ => bs "% % contracts (% shares each)"
  | InvTransaction_Income _ => bs " % % % (% %)"
  | InvTransaction_InvExpense _ => bs " % % (% %)"
  | InvTransaction_JrnlFund _ => bs " % % (% -> %)"
  | InvTransaction_JrnlSec _ => bs " % % % (% -> %)"
  | InvTransaction_MarginInterest _ => bs " % %"
  | InvTransaction_Reinvest _ => bs " % (% %)@% % (Total: %)"
  | InvTransaction_RetOfCap _ => bs " % % (% %)"
  | InvTransaction_SellDebt _ | InvTransaction_SellMF _ | InvTransaction_SellOpt _ | InvTransaction_SellOther _ | InvTransaction_SellStock _ =>
      bs " % (% %)@% % (Total: %)"
  | InvTransaction_Split _ => bs " %/% % -> % shares of % % (% % for fractional shares)"
  | InvTransaction_Transfer _ => bs " % (% %) %"
  end.

Inductive investment_line (cur : str) (t : InvTransaction) : str -> Prop :=
| inv_line kind : padded 14 (transaction_name t) kind ->
    investment_line cur t (kind ++ date_string (InvTran_DtTrade (InvTransaction_InvTransaction_method t)) ++
      filled (inv_template t) (inv_facts cur t) ++ [chr 10]).

(** The transactions of a cash account. *)
Inductive cash_lines (cur : str) (b : InvBankTransaction) : str -> Prop :=
| cash_line lines : Forall2 (transaction_line cur) (InvBankTransaction_Transactions b) lines ->
    cash_lines cur b ([chr 10] ++ bs "Bank Transactions for " ++ enum_name enum_subAcctType (InvBankTransaction_SubAcctFund b) ++
      bs " subaccount:" ++ [chr 10] ++ concat lines).

(** A whole number that is not a multiple of 2^64. *)
Definition visible_cash (q : Q) : Prop := exists z, Qeq q (inject_Z z) /\ (z mod 2 ^ 64 <> 0)%Z.

Definition investment_text (cash : Q) (cur : str) (d : gotime) (l : InvTranList) (text : str) : Prop :=
  exists balance banks lines,
    (visible_cash cash /\ balance = balance_line cash cur d \/ ~ visible_cash cash /\ balance = []) /\
    Forall2 (cash_lines cur) (InvTranList_BankTransactions l) banks /\
    Forall2 (investment_line cur) (InvTranList_InvTransactions l) lines /\
    text = balance ++ concat banks ++ [chr 10] ++ bs "Investment Transactions:" ++ [chr 10] ++ concat lines.

(** What is shown of an account. *)
Definition account_facts (a : AcctInfo) : list str :=
  match AcctInfo_BankAcctInfo a, AcctInfo_CCAcctInfo a, AcctInfo_InvAcctInfo a with
  | Some b, _, _ =>
      let f := BankAcctInfo_BankAcctFrom b in
      [BankAcct_BankID f; BankAcct_AcctID f; enum_name enum_acctType (BankAcct_AcctType f)]
  | None, Some c, _ => [CCAcct_AcctID (CCAcctInfo_CCAcctFrom c)]
  | None, None, Some i =>
      let f := InvAcctInfo_InvAcctFrom i in
      [InvAcct_BrokerID f; InvAcct_AcctID f]
  | None, None, None => [AcctInfo_Name a; AcctInfo_Desc a]
  end.

(** How it is shown: a line each. *)
Definition account_template (a : AcctInfo) : list str :=
  let field s := [chr 9] ++ s in
  match AcctInfo_BankAcctInfo a, AcctInfo_CCAcctInfo a, AcctInfo_InvAcctInfo a with
  | Some _, _, _ => [bs "Bank Account:"; field (bs "BankID: ""%"""); field (bs "AcctID: ""%"""); field (bs "AcctType: %")]
  | None, Some _, _ => [bs "Credit card:"; field (bs "AcctID: ""%""")]
  | None, None, Some _ => [bs "Investment account:"; field (bs "BrokerID: ""%"""); field (bs "AcctID: ""%""")]
  | None, None, None => [bs "Unknown type: % %"]
  end.

Definition account_entry (a : AcctInfo) : str :=
  filled (concat (map (fun line => line ++ [chr 10]) (account_template a))) (account_facts a).

Definition accounts_text (l : list AcctInfo) : str :=
  [chr 10] ++ bs "Found the following accounts:" ++ [chr 10; chr 10] ++ concat (map account_entry l).

(** What a program is told by its surroundings: random bytes, the time, the
    password. *)
Definition inputs (l : list io_event) : list io_event :=
  filter (fun x => match x with ERand _ | EClock _ | EPrompt _ => true | _ => false end) l.

(** The responses that a command cannot print. *)
Inductive unprintable : str -> Response -> Prop :=
| up_bank r s ms : sl_bank (rs_slots r) = MsgStatementResponse s :: ms -> StatementResponse_BankTranList s = None ->
    unprintable (bs "transactions-bank") r
| up_cc_list r s ms : sl_creditcard (rs_slots r) = MsgCCStatementResponse s :: ms -> CCStatementResponse_BankTranList s = None ->
    unprintable (bs "transactions-cc") r
| up_cc_name r s ms l t : sl_creditcard (rs_slots r) = MsgCCStatementResponse s :: ms -> CCStatementResponse_BankTranList s = Some l ->
    In t (TransactionList_Transactions l) -> Transaction_Name t = [] -> Transaction_Payee t = None ->
    unprintable (bs "transactions-cc") r
| up_inv_balance r s ms : sl_invstmt (rs_slots r) = MsgInvStatementResponse s :: ms -> InvStatementResponse_InvBal s = None ->
    unprintable (bs "transactions-inv") r
| up_inv_list r s ms : sl_invstmt (rs_slots r) = MsgInvStatementResponse s :: ms -> InvStatementResponse_InvTranList s = None ->
    unprintable (bs "transactions-inv") r.
