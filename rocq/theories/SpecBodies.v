(** Which bodies of answers are open. *)
From Verif Require Import GoStr Clients SpecClients Bodies.

Definition bodies := list (nat * http_response).

(** [lives p n o tr a n' o']: [p] returns [a] after the conversation [tr]. Before,
    [n] answers had been received and the bodies [o] of some of them were open; at
    the end these are [n'] and [o']. *)
Inductive lives {A} : life A -> nat -> bodies -> list event -> A -> nat -> bodies -> Prop :=
| li_over a n o : lives (Over a) n o [] a n o
| li_nothing p k n o tr1 tr2 a n' o' : runs p tr1 None -> lives (k None) n o tr2 a n' o' -> lives (Receive p k) n o (tr1 ++ tr2) a n' o'
| li_answer p k n o rp tr1 tr2 a n' o' : runs p tr1 (Some rp) -> lives (k (Some rp)) (S n) (o ++ [(n, rp)]) tr2 a n' o' ->
    lives (Receive p k) n o (tr1 ++ tr2) a n' o'
| li_close m k n o tr a n' o' : lives k n (filter (fun b => negb (Nat.eqb (fst b) m)) o) tr a n' o' -> lives (Close m k) n o tr a n' o'.
