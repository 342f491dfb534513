(** Model of the part of encoding/xml (github.com/aclindsa/xml) that turns
    structs into elements and back: the struct tags of /repo, Encoder.Encode,
    EncodeElement, Decoder.Decode and DecodeElement, together with the
    hand-written MarshalXML and UnmarshalXML methods of /repo/invstmt.go,
    seclist.go and profile.go.

    A document is a tree. Attributes are left out: no struct of /repo has an
    attribute field, so the decoder ignores them. Name spaces are left out for
    the same reason. *)
From Coq Require Import QArith.
From Verif Require Import GoStr GoNum GoRat GoTime Types Enums.

(** An element with its content, character data, or anything else (a comment, a
    processing instruction, a directive). *)
Inductive node :=
| Elem (name : str) (kids : list node)
| Text (s : str)
| Misc.

(** ** Types *)

(** The types with their own text form. *)
Inductive leafty :=
| LInt | LString | LAmount | LDate | LBool | LUID | LCurr | LEnum (t : enum).

Definition leafval (l : leafty) : Type :=
  match l with
  | LInt => Z
  | LString | LUID | LCurr => str
  | LAmount => Q
  | LDate => gotime
  | LBool => bool
  | LEnum _ => N
  end.

(** The Go types. A field has the path of parent elements and the name given by
    its tag, and the omitempty flag.
    - [TStruct]: a struct, with the name of its XMLName tag (empty if none);
    - [TPtr], [TSlice]: pointer and slice;
    - [TCustom]: a struct with UnmarshalXML/MarshalXML methods that dispatch on
      the child's name (InvTranList, SecurityList);
    - [TAlts]: inside a [TCustom], the slice of an interface type;
    - [TAltList]: a slice of an interface type with such methods (PositionList,
      OOList);
    - [TMsgSets]: MessageSetList; the fields are those of MessageSet after Name.
    An alternative has the name the decoder accepts and the name the encoder
    writes. *)
Inductive ty :=
| TLeaf (l : leafty)
| TStruct (xmlname : str) (fs : flds)
| TPtr (t : ty)
| TSlice (t : ty)
| TCustom (xmlname : str) (fs : flds)
| TAlts (a : alts)
| TAltList (xmlname : str) (a : alts)
| TMsgSets (fs : flds)
with flds :=
| FNil
| FCons (parents : list str) (name : str) (omitempty : bool) (t : ty) (fs : flds)
with alts :=
| ANil
| ACons (rd wr : str) (t : ty) (a : alts).

(** The Coq type of the values of a Go type. *)
Fixpoint interp (t : ty) : Type :=
  match t with
  | TLeaf l => leafval l
  | TStruct _ fs => interp_flds fs
  | TPtr t => option (interp t)
  | TSlice t => list (interp t)
  | TCustom _ fs => interp_flds fs
  | TAlts a => list (interp_alts a)
  | TAltList _ a => list (interp_alts a)
  | TMsgSets fs => list (str * interp_flds fs)
  end
with interp_flds (fs : flds) : Type :=
  match fs with
  | FNil => unit
  | FCons _ _ _ t fs => (interp t * interp_flds fs)%type
  end
with interp_alts (a : alts) : Type :=
  match a with
  | ANil => Empty_set
  | ACons _ _ t a => (interp t + interp_alts a)%type
  end.

(** The zero value of a Go type. *)
Definition leaf_zero (l : leafty) : leafval l :=
  match l with
  | LInt => 0%Z
  | LString => []
  | LAmount => 0%Q
  | LDate => zero_time
  | LBool => false
  | LUID => []
  | LCurr => bs "XXX"
  | LEnum _ => 0%N
  end.

Fixpoint zero (t : ty) : interp t :=
  match t with
  | TLeaf l => leaf_zero l
  | TStruct _ fs => zero_flds fs
  | TPtr t => None
  | TSlice t => []
  | TCustom _ fs => zero_flds fs
  | TAlts a => []
  | TAltList _ a => []
  | TMsgSets fs => []
  end
with zero_flds (fs : flds) : interp_flds fs :=
  match fs with
  | FNil => tt
  | FCons _ _ _ t fs => (zero t, zero_flds fs)
  end.

(** ** Encoding *)

Definition null {A} (l : list A) : bool := match l with [] => true | _ => false end.

(** encoding/xml's isEmptyValue: false for structs, so for Amount, Date and
    CurrSymbol. *)
Definition leaf_empty (l : leafty) : leafval l -> bool :=
  match l with
  | LInt => fun v => Z.eqb v 0
  | LString => fun v => null v
  | LAmount => fun _ => false
  | LDate => fun _ => false
  | LBool => fun v => negb v
  | LUID => fun v => null v
  | LCurr => fun _ => false
  | LEnum _ => fun v => N.eqb v 0
  end.

(** The text of a leaf: [Some None] when its MarshalXML writes no element. *)
Definition leaf_marshal (l : leafty) : leafval l -> option (option str) :=
  match l with
  | LInt => fun v => Some (Some (int_marshal v))
  | LString => fun v => Some (Some (string_marshal v))
  | LAmount => fun v => Some (Some (amount_string v))
  | LDate => fun v => Some (Some (date_string v))
  | LBool => fun v => Some (Some (boolean_marshal v))
  | LUID => fun v => Some (Some v)
  | LCurr => fun v => Some (Some (curr_marshal v))
  | LEnum t => fun v => enum_marshal t v
  end.

Definition leaf_unmarshal (e : env) (l : leafty) (text : str) : option (leafval l) :=
  match l return option (leafval l) with
  | LInt => int_unmarshal text
  | LString => Some (string_unmarshal text)
  | LAmount => amount_unmarshal text
  | LDate => date_unmarshal e text
  | LBool => boolean_unmarshal text
  | LUID => Some (uid_unmarshal text)
  | LCurr => curr_unmarshal e text
  | LEnum t => enum_unmarshal t text
  end.

(** The content of an element that holds only text. *)
Definition text_kids (s : str) : list node := match s with [] => [] | _ => [Text s] end.

Definition bind {A B} (a : option A) (f : A -> option B) : option B :=
  match a with Some x => f x | None => None end.
Notation "x <- a ;; b" := (bind a (fun x => b)) (at level 61, a at next level, right associativity).

(** Apply a marshalling function to the elements of a slice and collect the
    elements written; stop at the first error. *)
Fixpoint concat_opt {A B} (f : A -> option (list B)) (l : list A) : option (list B) :=
  match l with
  | [] => Some []
  | x :: l' => a <- f x ;; b <- concat_opt f l' ;; Some (a ++ b)
  end.

(** What the encoder does while it writes the fields of a struct: open a parent
    element, close it, write a whole element (marshal.go, parentStack). *)
Inductive cmd :=
| Open (name : str)
| Close
| Whole (n : node).

(** The trees these commands write: a list of the contents written at the
    current depth and, after each [Close], one level further up. *)
Fixpoint build (c : list cmd) : list (list node) :=
  match c with
  | [] => [[]]
  | Whole n :: c' => match build c' with f :: r => (n :: f) :: r | [] => [] end
  | Open n :: c' => match build c' with f :: g :: r => (Elem n f :: g) :: r | _ => [] end
  | Close :: c' => [] :: build c'
  end.

Definition content (c : list cmd) : list node := hd [] (build c).

(** parentStack.trim: the length of the common prefix of the stack and the
    field's parents. *)
Fixpoint common_prefix (a b : list str) : nat :=
  match a, b with
  | x :: a', y :: b' => if str_eqb x y then S (common_prefix a' b') else 0
  | _, _ => 0
  end.

Definition is_nil (t : ty) : interp t -> bool :=
  match t return interp t -> bool with
  | TPtr _ => fun v => match v with None => true | Some _ => false end
  | _ => fun _ => false
  end.

Definition not_v1 (name : str) : bool := negb (has_suffix (bs "V1") name).
Definition trim_v1 (name : str) : str := firstn (length name - 2) name.

(** printer.marshalValue: [force] says that the caller gives the element's name
    (EncodeElement); otherwise the name of the XMLName tag wins over the name of
    the field. The result is the list of the elements written, [None] an error.
    - TStruct: marshalStruct;
    - TCustom: InvTranList.MarshalXML, invstmt.go:716-826, and
      SecurityList.MarshalXML, seclist.go:322-358;
    - TAltList: PositionList.MarshalXML, invstmt.go:995-1031, and
      OOList.MarshalXML, invstmt.go:1300-1360;
    - TMsgSets: MessageSetList.MarshalXML, profile.go:131-157; EncodeToken
      refuses an element with an empty name. *)
Fixpoint marshal (t : ty) (force : bool) (name : str) (omit : bool) :
  interp t -> option (list node) :=
  match t return interp t -> option (list node) with
  | TLeaf l => fun v =>
      if omit && leaf_empty l v then Some []
      else o <- leaf_marshal l v ;;
           match o with
           | None => Some []
           | Some s => Some [Elem name (text_kids s)]
           end
  | TStruct x fs => fun v =>
      c <- struct_cmds fs [] v ;;
      Some [Elem (if force || null x then name else x) (content c)]
  | TPtr t => fun v =>
      match v with
      | None => Some []
      | Some v => marshal t force name omit v
      end
  | TSlice t => fun v =>
      if omit && null v then Some [] else concat_opt (marshal t force name omit) v
  | TCustom x fs => fun v => k <- custom_kids fs v ;; Some [Elem x k]
  | TAlts a => fun v => concat_opt (marshal_alt a) v
  | TAltList x a => fun v =>
      if omit && null v then Some []
      else k <- concat_opt (marshal_alt a) v ;; Some [Elem x k]
  | TMsgSets fs => fun v =>
      if omit && null v then Some []
      else
        k <- concat_opt (fun m : str * interp_flds fs =>
               let '(nm, r) := m in
               if not_v1 nm || null (trim_v1 nm) then None
               else
                 c <- struct_cmds fs [] r ;;
                 Some [Elem (trim_v1 nm)
                         [Elem nm (Elem (bs "Name") (text_kids nm) :: content c)]]) v ;;
        Some [Elem (bs "MSGSETLIST") k]
  end
with struct_cmds (fs : flds) (stack : list str) : interp_flds fs -> option (list cmd) :=
  match fs return interp_flds fs -> option (list cmd) with
  | FNil => fun _ => Some (repeat Close (length stack))
  | FCons ps nm om t fs' => fun v =>
      let k := common_prefix stack ps in
      let skip := is_nil t (fst v) in
      nodes <- marshal t false nm om (fst v) ;;
      rest <- struct_cmds fs' (if skip then firstn k ps else ps) (snd v) ;;
      Some (repeat Close (length stack - k) ++
            (if skip then [] else map Open (skipn k ps)) ++
            map Whole nodes ++ rest)
  end
with custom_kids (fs : flds) : interp_flds fs -> option (list node) :=
  match fs return interp_flds fs -> option (list node) with
  | FNil => fun _ => Some []
  | FCons _ nm _ t fs' => fun v =>
      a <- marshal t true nm false (fst v) ;;
      b <- custom_kids fs' (snd v) ;;
      Some (a ++ b)
  end
with marshal_alt (a : alts) : interp_alts a -> option (list node) :=
  match a return interp_alts a -> option (list node) with
  | ANil => fun v => match v with end
  | ACons _ wr t a' => fun v =>
      match v with
      | inl x => marshal t true wr false x
      | inr y => marshal_alt a' y
      end
  end.

(** ** Decoding *)

(** The character data directly inside an element. *)
Fixpoint text_of (kids : list node) : str :=
  match kids with
  | [] => []
  | Text s :: k => s ++ text_of k
  | _ :: k => text_of k
  end.

(** bytes.TrimSpace leaves nothing (util.go:17). *)
Definition blank (s : str) : bool := null (trim_space s).

(** The result of looking for a field: none wants this element, the element is
    a parent of some field, or a field has been decoded. *)
Inductive found (A : Type) :=
| NoMatch
| Prefix
| Hit (r : option A).
Arguments NoMatch {A}.
Arguments Prefix {A}.
Arguments Hit {A} r.

Definition found_map {A B} (f : A -> B) (m : found A) : found B :=
  match m with
  | NoMatch => NoMatch
  | Prefix => Prefix
  | Hit r => Hit (option_map f r)
  end.

Definition decoder := forall t, interp t -> option (interp t).

(** Decoder.unmarshalPath's search for the first field that matches the element
    [nm] found below [parents]. *)
Fixpoint strip_prefix (p l : list str) : option (list str) :=
  match p, l with
  | [], _ => Some l
  | x :: p', y :: l' => if str_eqb x y then strip_prefix p' l' else None
  | _ :: _, [] => None
  end.

Fixpoint match_fields (fs : flds) (parents : list str) (nm : str) (k : decoder) :
  interp_flds fs -> found (interp_flds fs) :=
  match fs return interp_flds fs -> found (interp_flds fs) with
  | FNil => fun _ => NoMatch
  | FCons ps n _ t fs' => fun v =>
      let next := found_map (pair (fst v)) (match_fields fs' parents nm k (snd v)) in
      match strip_prefix parents ps with
      | None => next
      | Some [] =>
          if str_eqb n nm then Hit (option_map (fun x => (x, snd v)) (k t (fst v))) else next
      | Some (p :: _) => if str_eqb p nm then Prefix else next
      end
  end.

(** The switch statements over the name of a child element. *)
Fixpoint has_alt (a : alts) (nm : str) : bool :=
  match a with
  | ANil => false
  | ACons rd _ _ a' => str_eqb rd nm || has_alt a' nm
  end.

Fixpoint match_custom (fs : flds) (nm : str) (k : decoder) :
  interp_flds fs -> option (interp_flds fs) :=
  match fs return interp_flds fs -> option (interp_flds fs) with
  | FNil => fun _ => None
  | FCons _ n _ t fs' => fun v =>
      if (match t with TAlts a => has_alt a nm | _ => str_eqb n nm end)
      then option_map (fun x => (x, snd v)) (k t (fst v))
      else option_map (pair (fst v)) (match_custom fs' nm k (snd v))
  end.

Fixpoint match_alts (a : alts) (nm : str) (k : decoder) : option (interp_alts a) :=
  match a return option (interp_alts a) with
  | ANil => None
  | ACons rd _ t a' =>
      if str_eqb rd nm then option_map inl (k t (zero t))
      else option_map inr (match_alts a' nm k)
  end.

(** One step of a hand-written UnmarshalXML loop (util.go's
    nextNonWhitespaceToken and the test on the token): blank text is skipped,
    other text and comments are errors, elements are handed to [f]. *)
Definition token_step {A} (n : node) (f : str -> A -> option A) (v : A) : option A :=
  match n with
  | Text s => if blank s then Some v else None
  | Misc => None
  | Elem nm _ => f nm v
  end.

Fixpoint run_all {A} (fs : list (A -> option A)) (v : A) : option A :=
  match fs with
  | [] => Some v
  | f :: fs' => v' <- f v ;; run_all fs' v'
  end.

(** The children left when blank text is skipped. *)
Definition solid (kids : list node) : list node :=
  filter (fun n => match n with Text s => negb (blank s) | _ => true end) kids.

(** What can be done with an element:
    - [d_value]: Decoder.unmarshal into a value of any type;
    - [d_walk]: look for the field of a struct it belongs to, below a path of
      parents (unmarshalPath, and Skip if there is none);
    - [d_msgset]: one round of the loop of MessageSetList.UnmarshalXML. The
      field MessageSet.Name has no tag, so encoding/xml fills it from a child
      element called Name; this cannot fail and line 114 overwrites it. *)
Record decoders := mkDecoders {
  d_value : decoder;
  d_walk : forall fs, list str -> interp_flds fs -> option (interp_flds fs);
  d_msgset : forall fs, option (str * interp_flds fs)
}.

(** Decoder.unmarshal. The cases TCustom, TAlts, TAltList are
    InvTranList.UnmarshalXML, invstmt.go:558-713,
    SecurityList.UnmarshalXML, seclist.go:272-319,
    PositionList.UnmarshalXML, invstmt.go:945-992,
    OOList.UnmarshalXML, invstmt.go:1214-1297;
    TMsgSets is MessageSetList.UnmarshalXML, profile.go:93-128. *)

Definition value_decoder (e : env) (name : str) (kids : list node) (ds : list (node * decoders)) : decoder :=
  fix go (t : ty) : interp t -> option (interp t) :=
    match t return interp t -> option (interp t) with
    | TLeaf l => fun _ => leaf_unmarshal e l (text_of kids)
    | TStruct x fs => fun old =>
        if negb (null x) && negb (str_eqb x name) then None
        else run_all (map (fun d => d_walk (snd d) fs []) ds) old
    | TPtr t => fun old =>
        option_map Some (go t (match old with Some v => v | None => zero t end))
    | TSlice t => fun old => option_map (fun v => old ++ [v]) (go t (zero t))
    | TCustom _ fs => fun old =>
        run_all (map (fun d => token_step (fst d)
                   (fun nm v => match_custom fs nm (d_value (snd d)) v)) ds) old
    | TAlts a => fun old =>
        option_map (fun v => old ++ [v])
          ((fix go_alts (a : alts) : option (interp_alts a) :=
              match a return option (interp_alts a) with
              | ANil => None
              | ACons rd _ t a' =>
                  if str_eqb rd name then option_map inl (go t (zero t))
                  else option_map inr (go_alts a')
              end) a)
    | TAltList _ a => fun old =>
        run_all (map (fun d => token_step (fst d)
                   (fun nm v => option_map (fun x => v ++ [x])
                                  (match_alts a nm (d_value (snd d))))) ds) old
    | TMsgSets fs => fun old =>
        run_all (map (fun d => token_step (fst d)
                   (fun _ v => option_map (fun x => v ++ [x]) (d_msgset (snd d) fs))) ds) old
    end.

Fixpoint decode (e : env) (n : node) : decoders :=
  match n with
  | Elem name kids =>
      let ds := map (fun k => (k, decode e k)) kids in
      let value := value_decoder e name kids ds in
      mkDecoders value
        (fun fs parents v =>
           match match_fields fs parents name value v with
           | NoMatch => Some v
           | Hit r => r
           | Prefix => run_all (map (fun d => d_walk (snd d) fs (parents ++ [name])) ds) v
           end)
        (fun fs =>
           match filter (fun d => match fst d with Text s => negb (blank s) | _ => true end) ds with
           | [(Elem vname _, d)] =>
               option_map (fun r => (vname, snd r))
                 (d_value d (TStruct [] (FCons [] (bs "Name") false (TLeaf LString) fs))
                          ([], zero_flds fs))
           | _ => None
           end)
  | _ => mkDecoders (fun _ _ => None) (fun _ _ v => Some v) (fun _ => None)
  end.

(** DecodeElement into a variable that already holds [old]. *)
Definition unmarshal (e : env) (t : ty) (n : node) (old : interp t) : option (interp t) :=
  d_value (decode e n) t old.

