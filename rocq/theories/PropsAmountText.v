(** C82: exactly which texts are amounts, and what they mean. *)
From Coq Require Import QArith Lia.
From Verif Require Import GoStr SpecStr SpecNum GoStrFacts GoNumFacts GoRat Types SpecAmountText AmountTextFacts.
Local Open Scope Z_scope.

(** A text is decoded to the number it denotes, in lowest terms; a text that
    denotes no number is refused. *)
Theorem C82_amount_exact : forall s y,
  amount_unmarshal s = Some y <-> exists x, amount_text s x /\ y = Qred x.
Proof. exact amount_exact. Qed.
Print Assumptions C82_amount_exact.

Theorem C82_amount_refused : forall s,
  amount_unmarshal s = None <-> forall x, ~ amount_text s x.
Proof. exact amount_none. Qed.
Print Assumptions C82_amount_refused.

(** No text denotes two numbers. *)
Theorem C82_amount_unique : forall s x y, amount_text s x -> amount_text s y -> (x == y)%Q.
Proof. exact amount_unique. Qed.
Print Assumptions C82_amount_unique.

Local Ltac grp := constructor; [discriminate|cbn; intuition discriminate].
Local Ltac bsd := apply based_iff; [lia|split; vm_compute; reflexivity].

(** A grouped decimal number with comma and exponent. *)
Example C82_decimal : amount_text (bs " -1_234,50e-2 ") (- (2469 # 200)) /\
  amount_unmarshal (bs " -1_234,50e-2 ") = Some (-2469 # 200).
Proof.
  split; [|vm_compute; reflexivity].
  exists (bs "-1_234,50e-2"), (bs "-1_234.50e-2").
  split; [apply trim_space_iff; vm_compute; reflexivity|].
  split. { right. exists (bs "-1_234"), (bs "50e-2"). split; [cbn; intuition discriminate|split; reflexivity]. }
  apply (number_scaled (bs "-") (bs "1_234.50") (bs "e-2") 10 123450 2 10 (-2)).
  - apply (mantissa_decimal_point (bs "1_234") (bs "50") (bs "1234") (bs "50")).
    + left. apply (grouped_more (bs "1") (bs "234") (bs "234")); [discriminate|cbn; intuition discriminate|grp].
    + left. grp.
    + discriminate.
    + bsd.
  - apply (exponent_ten 10 "e" (bs "-") (bs "2") (bs "2") 2); [left; reflexivity|discriminate|grp| | |].
    + apply digits_iff. split; reflexivity.
    + right. split; reflexivity.
    + unfold int64_range. lia.
  - unfold in_reach. cbn. lia.
  - right. split; [reflexivity|vm_compute; reflexivity].
Qed.

(** In a fraction a leading zero means octal, elsewhere it means nothing. *)
Example C82_octal : amount_text (bs "010/0b11") (8 # 3) /\
  amount_unmarshal (bs "010/0b11") = Some (8 # 3) /\ amount_unmarshal (bs "010") = Some (10 # 1) /\
  amount_unmarshal (bs "0x1e2") = Some (482 # 1) /\ amount_unmarshal (bs "0x,8p1") = Some (1 # 1).
Proof.
  split; [|repeat split; vm_compute; reflexivity].
  exists (bs "010/0b11"), (bs "010/0b11").
  split; [apply trim_space_iff; vm_compute; reflexivity|].
  split; [left; split; [cbn; intuition discriminate|reflexivity]|].
  apply (number_fraction [] (bs "010") (bs "0b11") 8 3).
  - apply (whole_octal (bs "10") (bs "10")); [left; grp|bsd].
  - apply (whole_prefixed 2 (bs "0b") (bs "11") (bs "11")); [constructor|left; grp|bsd].
  - discriminate.
  - left. split; [left; reflexivity|vm_compute; reflexivity].
Qed.

(** Misplaced underscores, second points and commas, and a missing digit are refused. *)
Example C82_none : amount_unmarshal (bs "1__0") = None /\ amount_unmarshal (bs "1_.0") = None /\
  amount_unmarshal (bs "1,234.5") = None /\ amount_unmarshal (bs "-.") = None /\
  amount_unmarshal (bs "1/0") = None /\ amount_unmarshal (bs "1e1000001") = None /\
  amount_unmarshal (bs "0e1000001") = Some (0 # 1).
Proof. repeat split; vm_compute; reflexivity. Qed.
