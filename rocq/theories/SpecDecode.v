(** What can be said about every response that has been read, stated on the
    response alone. *)
From Coq Require Import QArith.
From Verif Require Import GoStr GoTime Types Enums SpecStr SpecNum SpecDate Records Common Messages Codec SpecCodec Schema
  Document SpecDocument SpecXml Leaves SpecWire.
Close Scope Q_scope.

(** A property of every scalar field of a response. *)
Definition response_every (P : forall l, leafval l -> Prop) (r : Response) : Prop :=
  every P SignonResponse_ty (SignonResponse_to (rs_signon r)) /\
  forall set ms m, In (set, ms) (response_sets (rs_slots r)) -> In m ms -> message_every P m.

(** Fields as they are read: integers of 64 bits, text without surrounding white
    space that XML can carry, numbers in lowest terms, known currencies, and
    values of enumerations that have a name (0 for an element that is missing). *)
Definition read_field (e : env) (l : leafty) : leafval l -> Prop :=
  match l return leafval l -> Prop with
  | LInt => int64_range
  | LString | LUID => fun s => trimmed s /\ xml_string s
  | LAmount => fun q => Qred q = q
  | LDate | LBool => fun _ => True
  | LCurr => fun c => length c = 3 /\ upper_letters c /\ env_currency e c = true
  | LEnum t => fun v => v = 0%N \/ (1 <= v <= N.of_nat (length (en_names t)))%N
  end.

(** The amounts and dates that have an exact text form. *)
Definition exact_field (e : env) (l : leafty) : leafval l -> Prop :=
  match l return leafval l -> Prop with
  | LAmount => fun q => exists k, (q == inject_Z k / inject_Z (10 ^ 100))%Q
  | LDate => date_ok e
  | _ => fun _ => True
  end.

(** ** Differences between documents that do not matter *)

(** The names in the struct tags of a type: those of its fields and of the
    parents in their paths. *)
Fixpoint tag_names (t : ty) : list str :=
  match t with
  | TLeaf _ => []
  | TStruct _ fs | TCustom _ fs | TMsgSets fs => tags_of fs
  | TPtr t | TSlice t => tag_names t
  | TAlts a | TAltList _ a => alt_tags a
  end
with tags_of (fs : flds) : list str :=
  match fs with
  | FNil => []
  | FCons ps nm _ t fs' => ps ++ nm :: tag_names t ++ tags_of fs'
  end
with alt_tags (a : alts) : list str :=
  match a with
  | ANil => []
  | ACons rd _ t a' => rd :: tag_names t ++ alt_tags a'
  end.

Definition response_types : list ty :=
  [SignonResponse_ty; AcctInfoResponse_ty; StatementResponse_ty; CCStatementResponse_ty; InvStatementResponse_ty;
   SecListResponse_ty; SecurityList_ty; ProfileResponse_ty].

(** An element the library has no field for, such as the extensions of vendors. *)
Definition foreign (nm : str) : Prop := ~ In nm (flat_map tag_names response_types).

(** The elements whose content is read by hand-written code that refuses unknown
    elements: the document, its message sets and the lists of investment
    statements, securities and message set profiles. *)
Definition strict_elements : list str :=
  [bs "OFX"; bs "SIGNONMSGSRSV1"; bs "INVTRANLIST"; bs "INVPOSLIST"; bs "INVOOLIST"; bs "SECLIST"; bs "MSGSETLIST"]
  ++ response_set_names.

(** [alike n n']: [n'] is [n] except that, outside of the strict elements,
    elements of different names have changed places, unknown elements and
    comments have been added or taken away, at any depth. The list of message
    sets in a profile is left alone. *)
Inductive alike : node -> node -> Prop :=
| alike_refl n : alike n n
| alike_sym n n' : alike n n' -> alike n' n
| alike_trans n1 n2 n3 : alike n1 n2 -> alike n2 n3 -> alike n1 n3
| alike_below nm kids kids' :
    nm <> bs "MSGSETLIST" -> Forall2 alike kids kids' -> alike (Elem nm kids) (Elem nm kids')
| alike_swap nm before a ka b kb after :
    ~ In nm strict_elements -> a <> b ->
    alike (Elem nm (before ++ Elem a ka :: Elem b kb :: after)) (Elem nm (before ++ Elem b kb :: Elem a ka :: after))
| alike_foreign nm before u ku after :
    ~ In nm strict_elements -> foreign u ->
    alike (Elem nm (before ++ after)) (Elem nm (before ++ Elem u ku :: after))
| alike_comment nm before after :
    ~ In nm strict_elements -> alike (Elem nm (before ++ after)) (Elem nm (before ++ Misc :: after)).

(** What hand-written list decoders never accept: unknown elements, comments and
    text. *)
Definition stray (n : node) : Prop :=
  match n with
  | Elem nm _ => foreign nm
  | Text s => blank s = false
  | Misc => True
  end.

(** The lists of investment statements with hand-written decoders. *)
Definition investment_lists : list str := [bs "INVTRANLIST"; bs "INVPOSLIST"; bs "INVOOLIST"].

(** The offset of the zone of a date that has been written, with two decimals of
    an hour rounded towards zero, and read, in minutes rounded towards zero. *)
Definition reread_offset (off : Z) : Z :=
  (Z.sgn off * (3600 * (Z.abs off / 3600) + 60 * ((Z.abs off mod 3600) / 36 * 60 / 100)))%Z.
