(** Specification for C80: reading a document token by token. *)
From Verif Require Import GoStr Types Records Codec Document Xml Stream.

(** The decoder with other tokens in front of it. *)
Definition facing (raw : list Xml.token) (d : dec) : dec := mkDec (dc_strict d) (dc_leaves d) raw (dc_stk d).

(** Reading the OFX element yields the response [r] and leaves the decoder [d']:
    with all bounds for the number of rounds from some bound on. *)
Definition reads_ofx (e : env) (version : N) (d : dec) (r : Response) (d' : dec) : Prop :=
  exists n, forall fuel, n <= fuel -> s_ofx e fuel version d = Some (r, d').

(** The same for an element whose start tag has been read, into a variable of type
    [t] that holds [old]. *)
Definition reads_element (e : env) (t : ty) (name : str) (old : interp t) (d : dec) (v : interp t) (d' : dec) : Prop :=
  exists n, forall fuel, n <= fuel -> s_value e fuel t name old d = Some (v, d').

(** The same for Decoder.Skip. *)
Definition skips (d d' : dec) : Prop := exists n, forall fuel, n <= fuel -> skip fuel d = Some d'.
