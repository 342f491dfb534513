(** C77: what a response decodes to depends on the bytes its reader delivers,
    and not on the pieces they come in. *)
From Coq Require Import Lia.
From Verif Require Import GoStr Codec Schema Document Wire Bufio SpecReader.
From Verif Require BufioFacts.

(** A reader that delivers the bytes [s], in whatever pieces, decodes to what
    the bytes decode to; the buffered reader does not panic on the way, and no
    more than one call of ReadByte per byte, and one for the end, is made. *)
Theorem C77_decode : forall e r s fuel, delivers r s -> length s < fuel ->
  decode_from fuel e r = Some (decode_response e s).
Proof. exact BufioFacts.decode_from_delivers. Qed.
Print Assumptions C77_decode.

Theorem C77_parse : forall e r s fuel, delivers r s -> length s < fuel ->
  parse_from fuel e r = Some (parse_response e s).
Proof. exact BufioFacts.parse_from_delivers. Qed.
Print Assumptions C77_parse.

(** Two readers of the same bytes give the same. *)
Theorem C77_pieces : forall e r1 r2 s, delivers r1 s -> delivers r2 s ->
  exists answer, forall fuel, length s < fuel ->
    parse_from fuel e r1 = Some answer /\ parse_from fuel e r2 = Some answer.
Proof.
  intros e r1 r2 s D1 D2. exists (parse_response e s). intros fuel F.
  split; now apply C77_parse.
Qed.
Print Assumptions C77_pieces.

(** Bytes that are delivered all at once, one by one with an empty Read before
    each, and together with the end of the file. *)
Example C77_case : forall s,
  delivers (whole s) s /\ delivers (hesitant true s) s /\ delivers (eager s) s.
Proof.
  exact (fun s => conj (BufioFacts.whole_delivers s)
    (conj (BufioFacts.hesitant_delivers s) (BufioFacts.eager_delivers s))).
Qed.

(** They are different readers. *)
Example C77_case_reads :
  (match read (whole (bs "<OFX>")) 1024 with Piece b f _ => (b, f) end) = (bs "<OFX>", false) /\
  (match read (eager (bs "<OFX>")) 1024 with Piece b f _ => (b, f) end) = (bs "<OFX>", true) /\
  (match read (hesitant true (bs "<OFX>")) 1024 with Piece b f _ => (b, f) end) = ([], false) /\
  (match read (hesitant false (bs "<OFX>")) 1024 with Piece b f _ => (b, f) end) = (bs "<", false).
Proof. repeat split; reflexivity. Qed.

(** A reader that never returns anything is no trap: it has ended. *)
CoFixpoint stuck : reader := Reader (fun _ => Piece [] false stuck).

Example C77_case_stuck : ended stuck /\ delivers stuck [].
Proof.
  assert (E : ended stuck).
  { cofix C. constructor. intros room b failed r' H. cbn in H. injection H as <- <- <-. auto. }
  split; [exact E|]. constructor. intros room b failed r' R H. cbn in H. injection H as <- <- <-.
  split; [cbn; lia|]. exists []. split; [reflexivity|]. left. split; [reflexivity | exact E].
Qed.
