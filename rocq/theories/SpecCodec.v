(** Which field values the text forms of the library can represent, stated on
    the values alone, and what it means that all fields of a message do. *)
From Coq Require Import QArith.
From Verif Require Import GoStr GoTime Types Enums SpecStr SpecNum SpecDate Codec.
Close Scope Q_scope.
Local Open Scope Z_scope.

(** Dates: a civil time of the years 0 to 9999 to the millisecond, in a zone
    whose offset has two decimals in hours and is not between -1h and 0 (see
    C10), with an abbreviation time.Parse understands; or without abbreviation
    if the process itself does not run in a zone with this offset. *)
Definition date_ok (e : env) (t : gotime) : Prop :=
  exists c off n, t = mkTime (instant c off) off n /\ civil_ok c /\
    Z.divide 180 off /\ -90000 < off < 90000 /\ ~ -3600 < off < 0 /\
    (abbreviation off n \/
     n = [] /\ off <> 0 /\ snd (env_local e (instant c off / 1000000000)) <> off).

(** Amounts: a fraction in lowest terms, as math/big keeps it, that is a
    multiple of 10^-100. *)
Definition amount_ok (q : Q) : Prop :=
  Qred q = q /\ exists k, (q == inject_Z k / inject_Z (10 ^ 100))%Q.

Definition leaf_ok (e : env) (l : leafty) : leafval l -> Prop :=
  match l return leafval l -> Prop with
  | LInt => int64_range
  | LString | LUID => trimmed
  | LAmount => amount_ok
  | LDate => date_ok e
  | LBool => fun _ => True
  | LCurr => fun c => length c = 3%nat /\ upper_letters c /\ env_currency e c = true
  | LEnum t => fun v => v = 0%N \/ (1 <= v <= N.of_nat (length (en_names t)))%N
  end.

(** [every P t v]: all the scalar fields anywhere inside [v] satisfy [P]. *)
Fixpoint every (P : forall l, leafval l -> Prop) (t : ty) : interp t -> Prop :=
  match t return interp t -> Prop with
  | TLeaf l => P l
  | TStruct _ fs => every_field P fs
  | TPtr t => fun v => match v with None => True | Some v => every P t v end
  | TSlice t => Forall (every P t)
  | TCustom _ fs => every_field P fs
  | TAlts a => Forall (every_alt P a)
  | TAltList _ a => Forall (every_alt P a)
  | TMsgSets fs => Forall (fun m => every_field P fs (snd m))
  end
with every_field (P : forall l, leafval l -> Prop) (fs : flds) : interp_flds fs -> Prop :=
  match fs return interp_flds fs -> Prop with
  | FNil => fun _ => True
  | FCons _ _ _ t fs' => fun v => every P t (fst v) /\ every_field P fs' (snd v)
  end
with every_alt (P : forall l, leafval l -> Prop) (a : alts) : interp_alts a -> Prop :=
  match a return interp_alts a -> Prop with
  | ANil => fun _ => True
  | ACons _ _ t a' => fun v =>
      match v with inl x => every P t x | inr y => every_alt P a' y end
  end.

(** All fields of [v] can be represented. *)
Definition representable (e : env) (t : ty) (v : interp t) : Prop := every (leaf_ok e) t v.
