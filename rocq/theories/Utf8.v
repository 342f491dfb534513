(** Model of the parts of unicode/utf8 that encoding/xml uses. *)
From Verif Require Import GoStr.

Definition between (lo hi : N) (c : ascii) : bool := ((lo <=? code c) && (code c <=? hi))%N.

(** A continuation byte. *)
Definition cont (c : ascii) : bool := between 128 191 c.

(** The well formed sequences of two, three and four bytes (the tables [first]
    and [acceptRanges] of unicode/utf8). *)
Definition seq2 (a b : ascii) : bool := between 194 223 a && cont b.

Definition seq3 (a b c : ascii) : bool :=
  ((between 224 224 a && between 160 191 b) ||
   ((between 225 236 a || between 238 239 a) && cont b) ||
   (between 237 237 a && between 128 159 b)) && cont c.

Definition seq4 (a b c d : ascii) : bool :=
  ((between 240 240 a && between 144 191 b) ||
   (between 241 243 a && cont b) ||
   (between 244 244 a && between 128 143 b)) && cont c && cont d.

(** Their code points. *)
Definition rune2 (a b : ascii) : N := ((code a - 192) * 64 + (code b - 128))%N.
Definition rune3 (a b c : ascii) : N :=
  (((code a - 224) * 64 + (code b - 128)) * 64 + (code c - 128))%N.
Definition rune4 (a b c d : ascii) : N :=
  ((((code a - 240) * 64 + (code b - 128)) * 64 + (code c - 128)) * 64 + (code d - 128))%N.

(** utf8.DecodeRune: the first character of a non-empty string with its bytes,
    and the rest. [None] as character stands for (RuneError, 1), an encoding
    error. *)
Definition decode_rune (c : ascii) (s1 : str) : option N * str * str :=
  if (code c <? 128)%N then (Some (code c), [c], s1)
  else
    match s1 with
    | [] => (None, [c], s1)
    | d :: s2 =>
        if seq2 c d then (Some (rune2 c d), [c; d], s2)
        else
          match s2 with
          | [] => (None, [c], s1)
          | e :: s3 =>
              if seq3 c d e then (Some (rune3 c d e), [c; d; e], s3)
              else
                match s3 with
                | [] => (None, [c], s1)
                | f :: s4 =>
                    if seq4 c d e f then (Some (rune4 c d e f), [c; d; e; f], s4)
                    else (None, [c], s1)
                end
          end
    end.

(** The string as the loop "for len(s) > 0 { r, n := utf8.DecodeRune(s); ... }"
    sees it: the characters with their bytes. [fuel] bounds the number of
    characters. *)
Fixpoint runes_fuel (fuel : nat) (s : str) : list (option N * str) :=
  match fuel with
  | O => []
  | S fuel =>
      match s with
      | [] => []
      | c :: s1 => let '(r, b, rest) := decode_rune c s1 in (r, b) :: runes_fuel fuel rest
      end
  end.

Definition runes (s : str) : list (option N * str) := runes_fuel (length s) s.

(** utf8.EncodeRune, and string(rune(n)): surrogates and numbers above 0x10FFFF
    become U+FFFD. *)
Definition encode_rune (n : N) : str :=
  (if n <? 128 then [chr n]
   else if n <? 2048 then [chr (192 + n / 64); chr (128 + n mod 64)]
   else if ((55296 <=? n) && (n <=? 57343)) || (1114111 <? n) then [chr 239; chr 191; chr 189]
   else if n <? 65536 then [chr (224 + n / 4096); chr (128 + (n / 64) mod 64); chr (128 + n mod 64)]
   else [chr (240 + n / 262144); chr (128 + (n / 4096) mod 64);
         chr (128 + (n / 64) mod 64); chr (128 + n mod 64)])%N.
