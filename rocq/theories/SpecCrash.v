(** Programs that are interrupted, and what is then in the files. *)
From Coq Require Import QArith.
From Verif Require Import GoStr Clients SpecClients Cli SpecCli.
Close Scope Q_scope.

(** What a program has done when it is stopped at any point. *)
Inductive begins {A} : net A -> list event -> Prop :=
| be_here p : begins p []
| be_http r k a tr : begins (k a) tr -> begins (Http r k) (EHttp r a :: tr)
| be_dial h k a tr : begins (k a) tr -> begins (Dial h k) (EDial h a :: tr)
| be_write b k a tr : begins (k a) tr -> begins (Write b k) (EWrite b a :: tr)
| be_read k a tr : begins (k a) tr -> begins (Read k) (ERead a :: tr).

Inductive io_begins {A} : io A -> list io_event -> Prop :=
| ib_here p : io_begins p []
| ib_print s k l : io_begins k l -> io_begins (Print s k) (EPrint s :: l)
| ib_sleep n k l : io_begins k l -> io_begins (Sleep n k) (ESleep n :: l)
| ib_clock k x l : io_begins (k x) l -> io_begins (Clock k) (EClock x :: l)
| ib_rand k x l : io_begins (k x) l -> io_begins (Rand k) (ERand x :: l)
| ib_prompt k x l : io_begins (k x) l -> io_begins (Prompt k) (EPrompt x :: l)
| ib_create n k x l : io_begins (k x) l -> io_begins (Create n k) (ECreate n x :: l)
| ib_save b k x l : io_begins (k x) l -> io_begins (Save b k) (ESave b x :: l)
| ib_sending p k tr : begins p tr -> io_begins (Send p k) (map ENet tr)
| ib_send p k tr x l : runs p tr x -> io_begins (k x) l -> io_begins (Send p k) (map ENet tr ++ l)
| ib_asking p k tr : begins p tr -> io_begins (Ask p k) (map ENet tr)
| ib_ask p k tr x l : runs p tr x -> io_begins (k x) l -> io_begins (Ask p k) (map ENet tr ++ l).

(** The contents of the files there are. *)
Definition disk := str -> option str.
Definition put (d : disk) (f content : str) : disk := fun g => if str_eqb g f then Some content else d g.

(** What operations do to the files: creating a file empties it; writing that fails
    or is interrupted may have written any beginning. The second argument is the
    file that was created last. *)
Inductive disk_after : disk -> option str -> list io_event -> disk -> Prop :=
| da_end d o : disk_after d o [] d
| da_create d o f l d' : disk_after (put d f []) (Some f) l d' -> disk_after d o (ECreate f true :: l) d'
| da_no_create d o f l d' : disk_after d o l d' -> disk_after d o (ECreate f false :: l) d'
| da_save d f b l d' : disk_after (put d f b) (Some f) l d' -> disk_after d (Some f) (ESave b true :: l) d'
| da_part d f b p rest l d' : b = p ++ rest -> disk_after (put d f p) (Some f) l d' -> disk_after d (Some f) (ESave b false :: l) d'
| da_other d o x l d' : file_event x = false -> disk_after d o l d' -> disk_after d o (x :: l) d'.
