(** C83: dates made from fields. *)
From Coq Require Import Lia ZifyBool.
From Verif Require Import GoStr SpecStr SpecDate GoTime Types NewDate SpecNewDate NewDateFacts.
Local Open Scope Z_scope.

(** In a fixed zone every choice of fields denotes the instant at which a clock
    there shows them, where fields outside their usual range run over. *)
Theorem C83_new_date_fixed : forall y mo d h mi s ns name off, 0 <= y + (mo - 1) / 12 ->
  new_date y mo d h mi s ns (fixed_zone name off) =
  mkTime ((clock y mo d h mi s ns - off) * 1000000000 + ns mod 1000000000) off name.
Proof. exact new_date_fixed. Qed.
Print Assumptions C83_new_date_fixed.

(** In a location with changing offsets: if the clocks ever show the time, the
    date is an instant at which they show it, with the zone in use then. *)
Theorem C83_new_date_location : forall y mo d h mi s ns loc m,
  proper_location loc m -> 0 <= y + (mo - 1) / 12 -> shown loc (clock y mo d h mi s ns) ->
  let t := new_date y mo d h mi s ns loc in
  t_ns t / 1000000000 + t_off t = clock y mo d h mi s ns /\ t_ns t mod 1000000000 = ns mod 1000000000 /\
  t_off t = zp_off (loc (t_ns t / 1000000000)) /\ t_zone t = zp_name (loc (t_ns t / 1000000000)).
Proof. exact new_date_clock. Qed.
Print Assumptions C83_new_date_location.

(** If they never do, an offset in use nearby is applied. *)
Theorem C83_new_date_gap : forall y mo d h mi s ns loc m,
  proper_location loc m -> 0 <= y + (mo - 1) / 12 ->
  let w := clock y mo d h mi s ns in let t := new_date y mo d h mi s ns loc in
  exists j, - m <= j - w <= m /\ t_ns t = (w - zp_off (loc j)) * 1000000000 + ns mod 1000000000 /\
    t_off t = zp_off (loc (t_ns t / 1000000000)) /\ t_zone t = zp_name (loc (t_ns t / 1000000000)).
Proof. exact new_date_near. Qed.
Print Assumptions C83_new_date_gap.

(** A civil time that exists is written with the fields it was made of. *)
Theorem C83_new_date_text : forall c loc m,
  proper_location loc m -> civil_ok c ->
  shown loc (clock (cy c) (cmo c) (cd c) (ch c) (cmi c) (cs c) (cms c * 1000000)) ->
  let t := new_date (cy c) (cmo c) (cd c) (ch c) (cmi c) (cs c) (cms c * 1000000) loc in
  t_ns t = instant c (t_off t) /\
  exists x z, date_string t = x ++ "["%char :: z ++ "]"%char :: [] /\ date_text c x.
Proof. exact new_date_civil. Qed.
Print Assumptions C83_new_date_text.

(** NewDateGMT: the very date comes back from its text. *)
Theorem C83_gmt_round_trip : forall e c l r, civil_ok c -> ws_run l ->
  date_unmarshal e (l ++ date_string (new_date_gmt (cy c) (cmo c) (cd c) (ch c) (cmi c) (cs c) (cms c * 1000000)) ++ r) =
  Some (new_date_gmt (cy c) (cmo c) (cd c) (ch c) (cmi c) (cs c) (cms c * 1000000)).
Proof. exact new_date_gmt_round_trip. Qed.
Print Assumptions C83_gmt_round_trip.

(** Fields that run over. *)
Example C83_overflow :
  new_date_gmt 2020 14 29 25 (-1) 3600 2500000000 = new_date_gmt 2021 3 2 1 59 2 500000000 /\
  date_string (new_date_gmt 2020 14 29 25 (-1) 3600 2500000000) = bs "20210302015902.500[0:GMT]".
Proof. split; vm_compute; reflexivity. Qed.

(** New York in March 2020: the clocks go from 2:00 to 3:00. *)
Definition spring : Z := clock 2020 3 8 7 0 0 0.
Definition new_york : location := fun t =>
  if t <? spring then mkPeriod (bs "EST") (-18000) None (Some spring)
  else mkPeriod (bs "EDT") (-14400) (Some spring) None.

Example C83_new_york : proper_location new_york 18000 /\
  shown new_york (clock 2020 3 8 3 30 0 0) /\
  date_string (new_date 2020 3 8 3 30 0 0 new_york) = bs "20200308033000.000[-4:EDT]" /\
  date_string (new_date 2020 3 8 1 30 0 0 new_york) = bs "20200308013000.000[-5:EST]" /\
  ~ shown new_york (clock 2020 3 8 2 30 0 0) /\
  date_string (new_date 2020 3 8 2 30 0 0 new_york) = bs "20200308013000.000[-5:EST]".
Proof.
  unfold new_york.
  assert (E1 : clock 2020 3 8 3 30 0 0 = spring - 12600) by (vm_compute; reflexivity).
  assert (E2 : clock 2020 3 8 2 30 0 0 = spring - 16200) by (vm_compute; reflexivity).
  split; [|split; [|split; [vm_compute; reflexivity|split; [vm_compute; reflexivity|split; [|vm_compute; reflexivity]]]]].
  - clear E1 E2. generalize spring. intros p. split; [|split; [|split]].
    + intros t. destruct (Z.ltb_spec t p); split; intros x E; cbn in E; try discriminate; injection E as <-; lia.
    + intros t u. destruct (Z.ltb_spec t p); intros [H1 H2]; cbn in *.
      * specialize (H2 p eq_refl). replace (u <? p) with true by lia. reflexivity.
      * specialize (H1 p eq_refl). replace (u <? p) with false by lia. reflexivity.
    + intros t. destruct (t <? p); cbn; lia.
    + intros t a b. destruct (t <? p); cbn; intros H1 H2; discriminate.
  - rewrite E1. clear E1 E2. generalize spring. intros p. exists (p + 1800).
    replace (p + 1800 <? p) with false by lia. cbn [zp_off]. lia.
  - rewrite E2. clear E1 E2. generalize spring. intros p [t H]. destruct (Z.ltb_spec t p); cbn [zp_off] in H; lia.
Qed.
