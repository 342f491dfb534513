(** C09-C12: dates. *)
From Verif Require Import GoStr SpecStr SpecNum SpecDate GoStrFacts GoNum GoNumFacts GoRat GoTime Types
  DateFacts.
Local Open Scope Z_scope.

(** C09, named zones: the decoded date is the printed date. *)
Theorem C09_date_round_trip : forall e c off n l r,
  civil_ok c -> Z.divide 180 off -> -90000 < off < 90000 -> ~ -3600 < off < 0 ->
  abbreviation off n -> ws_run l ->
  date_unmarshal e (l ++ date_string (mkTime (instant c off) off n) ++ r) =
  Some (mkTime (instant c off) off n).
Proof. exact date_round_trip_named. Qed.
Print Assumptions C09_date_round_trip.

(** C09, unnamed zones: same instant and offset, and no name unless the local
    zone of the process has that offset at that instant. *)
Theorem C09_date_round_trip_unnamed : forall e c off l r,
  civil_ok c -> Z.divide 180 off -> -90000 < off < 90000 -> ~ -3600 < off < 0 -> off <> 0 -> ws_run l ->
  exists name,
  date_unmarshal e (l ++ date_string (mkTime (instant c off) off []) ++ r) =
  Some (mkTime (instant c off) off name) /\
  (snd (env_local e (instant c off / 1000000000)) <> off -> name = []).
Proof. exact date_round_trip_unnamed. Qed.
Print Assumptions C09_date_round_trip_unnamed.

Example C09_case : civil_ok (mkCivil 2020 2 29 23 59 59 999) /\ Z.divide 180 (-12600) /\
  abbreviation (-12600) (bs "NST") /\
  date_string (mkTime (instant (mkCivil 2020 2 29 23 59 59 999) (-12600)) (-12600) (bs "NST")) =
  bs "20200229235959.999[-3.50:NST]".
Proof.
  split; [|split; [|split]].
  - unfold civil_ok. cbn. repeat split; discriminate.
  - exists (-70). reflexivity.
  - split; [apply upper_letters_forallb; reflexivity|]. right. left. split; [reflexivity|discriminate].
  - vm_compute. reflexivity.
Qed.

(** C10 is false: the sign is lost, so the instant moves by twice the offset. *)
Theorem C10_negative_offset_refuted : exists e t t',
  -3600 < t_off t < 0 /\ date_unmarshal e (date_string t) = Some t' /\ t_ns t' <> t_ns t.
Proof. exact date_sign_refuted. Qed.
Print Assumptions C10_negative_offset_refuted.

(** What holds instead, for all of them. *)
Theorem C10_negative_offset_sign_lost : forall e c off n l r,
  civil_ok c -> Z.divide 180 off -> -3600 < off < 0 -> (n = [] \/ abbreviation (- off) n) -> ws_run l ->
  exists t', date_unmarshal e (l ++ date_string (mkTime (instant c off) off n) ++ r) = Some t' /\
    t_off t' = - off /\ t_ns t' = instant c off + 2 * off * 1000000000.
Proof. exact date_sign_lost. Qed.
Print Assumptions C10_negative_offset_sign_lost.

(** C11: dates without a zone are GMT; impossible civil times are rejected. *)
Theorem C11_date_no_zone : forall e c t l r, date_text c t -> ws_run l -> ws_run r ->
  (civil_ok c -> date_unmarshal e (l ++ t ++ r) = Some (mkTime (instant c 0) 0 (bs "GMT"))) /\
  (~ civil_ok c -> date_unmarshal e (l ++ t ++ r) = None).
Proof. exact date_decode_plain. Qed.
Print Assumptions C11_date_no_zone.

(** C11, with a zone in the OFX notation. *)
Theorem C11_date_zone : forall e c t off n z l rest,
  date_text c t -> zone_text off n z -> (n = [] \/ abbreviation off n) -> ws_run l ->
  (civil_ok c -> exists name,
     date_unmarshal e (l ++ t ++ "["%char :: z ++ "]"%char :: rest) =
       Some (mkTime (instant c off) off name) /\ (n <> [] -> name = n)) /\
  (~ civil_ok c -> date_unmarshal e (l ++ t ++ "["%char :: z ++ "]"%char :: rest) = None).
Proof. exact date_decode_instant. Qed.
Print Assumptions C11_date_zone.

Example C11_case : date_text (mkCivil 2024 2 29 7 5 0 0) (bs "202402290705") /\
  civil_ok (mkCivil 2024 2 29 7 5 0 0) /\ ~ civil_ok (mkCivil 2023 2 29 7 5 0 0) /\
  zone_text (-34200) (bs "AKT") (bs "-9.50:AKT").
Proof.
  split; [|split; [|split]].
  - apply (text_minute 2024 2 29 7 5 (bs "2024") (bs "02") (bs "29") (bs "07") (bs "05"));
      (split; [reflexivity|apply digits_iff; split; vm_compute; reflexivity]).
  - unfold civil_ok. cbn. repeat split; discriminate.
  - unfold civil_ok. cbn. intros [_ [_ [[_ H] _]]]. apply H. reflexivity.
  - apply (zone_frac (-9) 50 (bs "-9") (bs "50") (bs "AKT")).
    + exists (bs "-"), (bs "9"), 9. split; [reflexivity|]. split; [discriminate|].
      split; [apply digits_iff; split; reflexivity|]. right. right. auto.
    + split; discriminate.
    + split; [reflexivity|apply digits_iff; split; reflexivity].
    + intros r _. reflexivity.
Qed.

(** C12: Equal compares instants. *)
Theorem C12_date_equal : forall a b, date_equal a b = true <-> t_ns a = t_ns b.
Proof. exact date_equal_iff. Qed.
Print Assumptions C12_date_equal.

Theorem C12_date_equal_equivalence :
  (forall a, date_equal a a = true) /\
  (forall a b, date_equal a b = true -> date_equal b a = true) /\
  (forall a b c, date_equal a b = true -> date_equal b c = true -> date_equal a c = true).
Proof. exact date_equal_equivalence. Qed.
Print Assumptions C12_date_equal_equivalence.

(** Converting to another zone (Time.In) keeps a date equal. *)
Theorem C12_date_equal_any_zone : forall t off n, date_equal t (mkTime (t_ns t) off n) = true.
Proof. exact (fun t off n => proj2 (date_equal_iff t (mkTime (t_ns t) off n)) eq_refl). Qed.
Print Assumptions C12_date_equal_any_zone.

Example C12_case : date_equal (mkTime (instant (mkCivil 2020 1 1 0 0 0 0) 0) 0 (bs "GMT"))
  (mkTime (instant (mkCivil 2019 12 31 19 0 0 0) (-18000)) (-18000) (bs "EST")) = true.
Proof. vm_compute. reflexivity. Qed.
