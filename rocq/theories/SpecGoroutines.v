(** How goroutines run together. *)
From Coq Require Import QArith.
From Verif Require Import GoStr GoTime Records Codec Document Clients SpecClients Goroutines.
Close Scope Q_scope.

(** The requests, by their addresses. *)
Definition memory := nat -> Request.
Definition written (h : memory) (a : nat) (q : Request) : memory := fun b => if Nat.eqb b a then q else h b.

Fixpoint replaced {A} (i : nat) (x : A) (l : list A) : list A :=
  match l, i with
  | [], _ => []
  | _ :: l, O => x :: l
  | y :: l, S i => y :: replaced i x l
  end.

(** One step of one goroutine: the clock shows any time, memory is read and
    written, the network answers anything. *)
Inductive step : memory -> routine -> option event -> memory -> routine -> Prop :=
| st_look h k t : step h (Look k) None h (k t)
| st_store h a f k : step h (Store a f k) None (written h a (f (h a))) k
| st_load h a k : step h (Load a k) None h (k (h a))
| st_talked h o k : step h (Talk (Done o) k) None h (k o)
| st_http h r p k x : step h (Talk (Http r p) k) (Some (EHttp r x)) h (Talk (p x) k)
| st_dial h n p k x : step h (Talk (Dial n p) k) (Some (EDial n x)) h (Talk (p x) k)
| st_write h b p k x : step h (Talk (Write b p) k) (Some (EWrite b x)) h (Talk (p x) k)
| st_read h p k x : step h (Talk (Read p) k) (Some (ERead x)) h (Talk (p x) k).

(** Some steps of goroutines in any order; the log says who used the network. *)
Inductive together : memory -> list routine -> list (nat * event) -> memory -> list routine -> Prop :=
| to_stop h l : together h l [] h l
| to_step h l i r e h1 r1 log h2 l2 : nth_error l i = Some r -> step h r e h1 r1 -> together h1 (replaced i r1 l) log h2 l2 ->
    together h l (match e with Some x => (i, x) :: log | None => log end) h2 l2.

(** The operations of one of them. *)
Definition done_by (i : nat) (log : list (nat * event)) : list event :=
  flat_map (fun x => if Nat.eqb (fst x) i then [snd x] else []) log.
