(** C98: writing and reading again settles. *)
From Verif Require Import GoStr SpecStr SpecNum SpecDate SpecDateText GoStrFacts GoNum GoNumFacts GoRat GoTime Types DateFacts DateTextFacts
  SpecDecode DriftFacts SpecReread RereadFacts SettleFacts.
From Coq Require Import QArith.
Close Scope Q_scope.
Local Open Scope Z_scope.

(** A date that was read changes at most twice when it is written and read again
    and again, where the names of the zone of the machine can be read. The clock
    keeps its milliseconds; the offset moves towards zero by at most two minutes, or
    loses its sign (C10). *)
Theorem C98_date : forall e s t, date_unmarshal e s = Some t ->
  (forall i, fst (env_local e i) = [] \/ abbreviation (snd (env_local e i)) (fst (env_local e i))) ->
  exists t1 t2, date_unmarshal e (date_string t) = Some t1 /\ date_unmarshal e (date_string t1) = Some t2 /\
    date_unmarshal e (date_string t2) = Some t2 /\
    t_ns t2 + t_off t2 * 1000000000 = t_ns t + t_off t * 1000000000 - t_ns t mod 1000000 /\
    Z.abs (t_off t) - 120 <= Z.abs (t_off t2) <= Z.abs (t_off t).
Proof. exact dates_settle. Qed.
Print Assumptions C98_date.

(** An amount changes at most once. *)
Theorem C98_amount : forall x, exists y,
  amount_unmarshal (amount_string x) = Some y /\ amount_unmarshal (amount_string y) = Some y.
Proof. exact amounts_settle. Qed.
Print Assumptions C98_amount.

(** A date for which it takes two rounds, on a machine that meets the condition. *)
Example C98_case : let e := mkEnv (fun i => if i <? 63845000000 then (bs "EST", -18000) else (bs "EDT", -14400)) (fun _ => true) in
  (forall i, fst (env_local e i) = [] \/ abbreviation (snd (env_local e i)) (fst (env_local e i))) /\
  let again t := date_unmarshal e (date_string t) in
  exists t t1 t2, date_unmarshal e (bs "20240229[5.34:ABC]") = Some t /\ again t = Some t1 /\ again t1 = Some t2 /\ again t2 = Some t2 /\
    date_string t = bs "20240229000000.000[5.33:ABC]" /\ date_string t1 = bs "20240229000000.000[5.31:ABC]" /\
    date_string t2 = bs "20240229000000.000[5.30:ABC]".
Proof.
  cbv zeta. split.
  - intros i. right. cbn [env_local]. destruct (i <? 63845000000); cbn [fst snd];
      (split; [repeat constructor; cbn; discriminate|right; left; split; [reflexivity|discriminate]]).
  - eexists. eexists. eexists. split; [vm_compute; reflexivity|]. repeat (split; [vm_compute; reflexivity|]). vm_compute; reflexivity.
Qed.

(** An amount that changes once. *)
Example C98_third : exists y, amount_unmarshal (amount_string (1 # 3)) = Some y /\ ~ (y == 1 # 3)%Q /\
  amount_unmarshal (amount_string y) = Some y.
Proof.
  eexists. split; [vm_compute; reflexivity|]. split; [discriminate|vm_compute; reflexivity].
Qed.
