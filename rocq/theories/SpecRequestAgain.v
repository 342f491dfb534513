(** What a server reads in a request whose fields are not exact (C75, C78). *)
From Coq Require Import QArith.
From Verif Require Import GoStr GoTime Types Enums EnumTables Records Common Messages Codec Schema Document SpecDocument SpecCodec SpecWire SpecAgain.
Close Scope Q_scope.

(** [f] applied to the fields of a sign-on, and to those of all messages. *)
Definition signon_changed (f : forall l, leafval l -> leafval l) (s : SignonRequest) : SignonRequest :=
  SignonRequest_of (changed f SignonRequest_ty (SignonRequest_to s)).

Definition slots_changed (f : forall l, leafval l -> leafval l) : Slots -> Slots := map_slots (message_changed f).

(** Every field of a request satisfies [P]. *)
Definition request_every (P : forall l, leafval l -> Prop) (q : Request) : Prop :=
  every P SignonRequest_ty (SignonRequest_to (rq_signon q)) /\
  forall set ms m, In (set, ms) (request_sets (rq_slots q)) -> In m ms -> message_every P m.

(** A date without what is below its milliseconds. *)
Definition whole_ms (t : gotime) : gotime := mkTime (t_ns t - t_ns t mod 1000000)%Z (t_off t) (t_zone t).

(** The same for any field: only dates change. *)
Definition cut_ms (l : leafty) : leafval l -> leafval l :=
  match l return leafval l -> leafval l with
  | LDate => whole_ms
  | LInt | LString | LUID | LAmount | LBool | LCurr | LEnum _ => fun v => v
  end.

(** A field that is exact but for what is below the milliseconds of a date. *)
Definition exact_to_ms (e : env) (l : leafty) (v : leafval l) : Prop := leaf_ok e l (cut_ms l v).
