(** Specification of white space trimming, independent of the model: Unicode
    white space code points, their UTF-8 encoding, and what it means to remove
    the surrounding white space of a string. *)
From Verif Require Import GoStr.
Local Open Scope N_scope.

(** UTF-8 encoding of a code point below 2^16. *)
Definition utf8 (r : N) : str :=
  if r <? 128 then [chr r]
  else if r <? 2048 then [chr (192 + r / 64); chr (128 + r mod 64)]
  else [chr (224 + r / 4096); chr (128 + r / 64 mod 64); chr (128 + r mod 64)].

(** The code points with Unicode property White_Space. *)
Definition space_runes : list N :=
  [9; 10; 11; 12; 13; 32; 133; 160; 5760;
   8192; 8193; 8194; 8195; 8196; 8197; 8198; 8199; 8200; 8201; 8202;
   8232; 8233; 8239; 8287; 12288].

(** [w] is one encoded white space character. *)
Definition ws_char (w : str) : Prop := exists r, In r space_runes /\ w = utf8 r.

(** [s] consists of white space characters only. *)
Inductive ws_run : str -> Prop :=
| ws_nil : ws_run []
| ws_cons : forall w s, ws_char w -> ws_run s -> ws_run (w ++ s).

(** [s] neither starts nor ends with a white space character. *)
Definition trimmed (s : str) : Prop :=
  (forall w s', ws_char w -> s <> w ++ s') /\
  (forall w s', ws_char w -> s <> s' ++ w).

(** [t] is what remains of [s] when the surrounding white space is removed. *)
Definition trims_to (s t : str) : Prop :=
  exists l r, ws_run l /\ ws_run r /\ s = l ++ t ++ r /\ trimmed t.
