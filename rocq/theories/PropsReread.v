(** C97: which dates that were written can be read again. *)
From Verif Require Import GoStr SpecStr SpecNum SpecDate SpecDateText GoStrFacts GoNum GoNumFacts GoRat GoTime Types DateFacts DateTextFacts
  SpecReread RereadFacts.
Local Open Scope Z_scope.

(** The text of a date, of any nanosecond of the years 0 to 9999 in a zone less
    than 25 hours from UTC, can be read exactly if its zone has no name, or three
    capital letters, or four or five of certain forms. *)
Theorem C97_written : forall e c ns off n,
  civil_ok c -> cms c = 0 -> 0 <= ns < 1000000000 -> -90000 < off < 90000 -> Forall zone_name_char n ->
  (exists t, date_unmarshal e (date_string (mkTime (instant c off + ns) off n)) = Some t) <-> n = [] \/ abbreviation 0 n.
Proof. exact reread_written. Qed.
Print Assumptions C97_written.

(** A date that was read has a zone with such a name, or none, or that of the
    zone of the machine, *)
Theorem C97_name : forall e s t, date_unmarshal e s = Some t ->
  t_zone t = [] \/ abbreviation 0 (t_zone t) \/ env_local e (t_ns t / 1000000000) = (t_zone t, t_off t).
Proof. exact read_name. Qed.
Print Assumptions C97_name.

(** so that it can be written and read again, on any machine, if the zone of the
    machine that wrote it always has such a name. *)
Theorem C97_read : forall e e' s t, date_unmarshal e s = Some t ->
  (forall i, fst (env_local e i) = [] \/ abbreviation 0 (fst (env_local e i))) ->
  exists t', date_unmarshal e' (date_string t) = Some t'.
Proof. exact read_written. Qed.
Print Assumptions C97_read.

(** Names of zones that can not be read: Bogotá, Guam, and Kathmandu. *)
Example C97_case :
  let e := mkEnv (fun _ => (bs "-05", -18000)) (fun _ => true) in
  let t n off := mkTime (instant (mkCivil 2024 2 29 7 5 0 0) off + 123456789) off n in
  date_string (t (bs "-05") (-18000)) = bs "20240229070500.123[-5:-05]" /\
  date_unmarshal e (date_string (t (bs "-05") (-18000))) = None /\
  date_unmarshal e (date_string (t (bs "ChST") 36000)) = None /\
  date_unmarshal e (date_string (t (bs "+0545") 20700)) = None /\
  date_unmarshal e (date_string (t (bs "EST") (-18000))) = Some (mkTime (instant (mkCivil 2024 2 29 7 5 0 123) (-18000)) (-18000) (bs "EST")) /\
  Forall zone_name_char (bs "-05") /\ Forall zone_name_char (bs "ChST") /\ Forall zone_name_char (bs "+0545").
Proof.
  cbv zeta. do 5 (split; [vm_compute; reflexivity|]).
  split; [|split]; repeat (constructor; [unfold zone_name_char; cbn; Lia.lia|]); constructor.
Qed.

(** A machine whose zone satisfies the condition of C97_read. *)
Example C97_zone : let e := mkEnv (fun i => if i <? 63845000000 then (bs "EST", -18000) else (bs "EDT", -14400)) (fun _ => true) in
  (forall i, fst (env_local e i) = [] \/ abbreviation 0 (fst (env_local e i))) /\
  option_map date_string (date_unmarshal e (bs "20240229[-5]")) = Some (bs "20240229000000.000[-5:EST]").
Proof.
  cbv zeta. split; [|vm_compute; reflexivity]. intros i. right. cbn [env_local]. destruct (i <? 63845000000); cbn [fst];
    (split; [repeat constructor; cbn; discriminate|right; left; split; [reflexivity|discriminate]]).
Qed.
