(** What it means for a reader to deliver a sequence of bytes, whatever the
    pieces are (C77). *)
From Verif Require Import GoStr Bufio.

(** The reader has nothing more to give: no Read returns a byte, now or later. It
    may return errors or not. *)
CoInductive ended : reader -> Prop :=
  ended_intro (r : reader) :
    (forall room b failed r', read r room = Piece b failed r' -> b = [] /\ ended r') ->
    ended r.

(** The reader delivers the bytes [s]: each Read into a slice with room for at
    least one byte returns a first part of them, no longer than the room, and the
    reader after it delivers the others. The part may be empty, if fewer than a
    hundred Reads in a row are ([idle] more may be). An error comes with the last
    byte or after it. *)
CoInductive delivering (idle : nat) (r : reader) (s : str) : Prop :=
  delivering_intro :
    (forall room b failed r', 0 < room -> read r room = Piece b failed r' ->
       length b <= room /\
       exists s', s = b ++ s' /\
         (s' = [] /\ ended r' \/
          failed = false /\
          (b <> [] /\ delivering 99 r' s' \/
           b = [] /\ exists idle', idle = S idle' /\ delivering idle' r' s'))) ->
    delivering idle r s.

Definition delivers (r : reader) (s : str) : Prop := delivering 99 r s.

(** Three readers of the same bytes: all at once, one byte at a time with an
    empty Read before each, and all at once together with io.EOF. *)
CoFixpoint exhausted : reader := Reader (fun _ => Piece [] true exhausted).

CoFixpoint whole (s : str) : reader :=
  Reader (fun room =>
    match s with
    | [] => Piece [] true exhausted
    | _ => Piece (firstn room s) false (whole (skipn room s))
    end).

CoFixpoint hesitant (pause : bool) (s : str) : reader :=
  Reader (fun _ =>
    if pause then Piece [] false (hesitant false s)
    else match s with
         | [] => Piece [] true exhausted
         | c :: s' => Piece [c] false (hesitant true s')
         end).

CoFixpoint eager (s : str) : reader :=
  Reader (fun room =>
    match skipn room s with
    | [] => Piece s true exhausted
    | s' => Piece (firstn room s) false (eager s')
    end).
