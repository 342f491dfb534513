(** Proofs for C91: nothing is indexed, sliced or dereferenced that is not there. *)
From Coq Require Import ZArith Lia Bool.
From Verif Require Import GoStr GoNum GoTime Types Enums EnumTables Records Codec Xml StatusTable Common Messages Document Headers Panics.

Lemma at_index_in A (s : list A) i : i < length s -> exists a, at_index s i = Returns a /\ nth_error s i = Some a.
Proof.
  intros H. unfold at_index. destruct (nth_error s i) eqn:E; [eauto|]. apply nth_error_None in E. lia.
Qed.

Lemma split_n2_first s sep : exists a, at_index (split_n2 s sep) 0 = Returns a /\ a = match split2 sep s with Some (a, _) => a | None => s end.
Proof. unfold split_n2. destruct (split2 sep s) as [[a b]|]; eexists; split; reflexivity. Qed.

Lemma uid_recommended_returns u : uid_recommended_go u = Returns (uid_recommended u).
Proof.
  unfold uid_recommended_go, uid_recommended. destruct (Nat.eqb (length u) 36) eqn:E; [|reflexivity]. apply Nat.eqb_eq in E. cbn [negb].
  destruct (at_index_in _ u 8 ltac:(lia)) as (a & -> & ->). destruct (at_index_in _ u 13 ltac:(lia)) as (b & -> & ->).
  destruct (at_index_in _ u 18 ltac:(lia)) as (c & -> & ->). destruct (at_index_in _ u 23 ltac:(lia)) as (d & -> & ->).
  cbn [bind_go]. destruct (Ascii.eqb a "-"), (Ascii.eqb b "-"), (Ascii.eqb c "-"), (Ascii.eqb d "-"); reflexivity.
Qed.

Lemma between_in s lo hi : lo <= hi -> hi <= length s -> between s lo hi = Returns (firstn (hi - lo) (skipn lo s)).
Proof. intros H1 H2. unfold between. rewrite (proj2 (Nat.leb_le _ _) H1), (proj2 (Nat.leb_le _ _) H2). reflexivity. Qed.

Lemma random_uid_returns r : (forall buf n, r = RandRead buf n -> length buf = 16) -> random_uid_go r = Returns (random_uid r).
Proof.
  intros H. destruct r as [|buf n]; [reflexivity|]. specialize (H buf n eq_refl). unfold random_uid_go, random_uid.
  destruct (n =? 16)%Z; [|reflexivity]. cbn [negb]. rewrite !between_in, H by lia. reflexivity.
Qed.

Lemma date_zone_returns z : date_zone_go z = Returns (date_zone z).
Proof.
  unfold date_zone_go, date_zone, zone_submatches. destruct (zone_match _) as [[[hours mins] name]|]; [|reflexivity].
  cbv zeta. change (at_index (_ :: hours :: _) 1) with (Returns hours). cbn [bind_go]. destruct (parse_int hours) as [h|]; [|reflexivity].
  change (at_index (_ :: hours :: _) 3) with (Returns mins). cbn [bind_go].
  destruct (match mins with [] => Some 0%Z | _ => _ end) as [mi|]; [|reflexivity].
  change (at_index (_ :: hours :: _) 5) with (Returns name). reflexivity.
Qed.

Lemma date_unmarshal_returns e value : date_unmarshal_go e value = Returns (date_unmarshal e value).
Proof.
  unfold date_unmarshal_go, date_unmarshal. destruct (split_n2_first value (bs "]")) as (a & -> & ->). cbn [bind_go]. cbv zeta.
  unfold split_n2. set (v2 := trim_space _). destruct (split2 (bs "[") v2) as [[v z]|]; [|reflexivity].
  cbn [length Nat.eqb]. change (at_index [v; z] 0) with (Returns v). change (at_index [v; z] 1) with (Returns z). cbn [bind_go].
  rewrite date_zone_returns. reflexivity.
Qed.

Lemma status_valid_returns s : status_valid_go s = Returns (status_valid s).
Proof.
  unfold status_valid_go, status_valid, status_array. cbv zeta. destruct (_ || _); [|reflexivity].
  destruct (status_lookup _ _) as [[[a b] c]|]; reflexivity.
Qed.

Lemma status_meaning_returns s : status_code_meaning_go s = Returns (status_code_meaning s).
Proof. unfold status_code_meaning_go, status_code_meaning, status_array. destruct (status_lookup _ _) as [[[a b] c]|]; reflexivity. Qed.

Lemma status_conditions_returns s : status_code_conditions_go s = Returns (status_code_conditions s).
Proof. unfold status_code_conditions_go, status_code_conditions, status_array. destruct (status_lookup _ _) as [[[a b] c]|]; reflexivity. Qed.

Lemma then_returns a b : and_then (Returns a) (Returns b) = Returns (and_valid a b).
Proof. destruct a; reflexivity. Qed.

Lemma all_returns A f g (l : list A) : (forall x, f x = Returns (g x)) -> all_valid_go f l = Returns (all_valid g l).
Proof.
  intros H. induction l as [|x l IH]; [reflexivity|]. cbn [all_valid_go]. rewrite H, IH, then_returns. reflexivity.
Qed.

Lemma present_returns A B (o : option A) (f : A -> B) (d : B) :
  (if is_some o then x <! deref o; Returns (f x) else Returns d) = Returns (match o with Some x => f x | None => d end).
Proof. destruct o; reflexivity. Qed.

Lemma accounts_return (b : option BankAcct) (c : option CCAcct) :
  (if is_some b && is_some c then Returns (invalid "Only one of Transaction.BankAcctTo and CCAcctTo may be specified")
   else if is_some b then x <! deref b; Returns (bank_acct_valid x)
   else if is_some c then x <! deref c; Returns (cc_acct_valid x)
   else Returns None) =
  Returns (match b, c with
           | Some _, Some _ => invalid "Only one of Transaction.BankAcctTo and CCAcctTo may be specified"
           | Some b, None => bank_acct_valid b
           | None, Some c => cc_acct_valid c
           | None, None => None
           end).
Proof. destruct b, c; reflexivity. Qed.

Lemma transaction_valid_returns t version : transaction_valid_go t version = Returns (transaction_valid t version).
Proof.
  unfold transaction_valid_go, checked. rewrite accounts_return, !present_returns. cbn [bind_go]. rewrite !then_returns. reflexivity.
Qed.

Lemma transaction_list_returns l version : transaction_list_valid_go l version = Returns (transaction_list_valid l version).
Proof.
  unfold transaction_list_valid_go, transaction_list_valid, checked. rewrite (all_returns _ _ (fun t => transaction_valid t version)).
  - rewrite !then_returns. reflexivity.
  - intros t. apply transaction_valid_returns.
Qed.

Lemma statement_response_returns r version : statement_response_valid_go r version = Returns (statement_response_valid r version).
Proof.
  unfold statement_response_valid_go, statement_response_valid, checked, if_present. rewrite status_valid_returns.
  destruct (StatementResponse_BankTranList r) as [l|], (StatementResponse_BankTranListP r) as [l'|]; cbn [is_some deref bind_go];
    rewrite ?transaction_list_returns, ?then_returns; reflexivity.
Qed.

Lemma message_valid_returns m version : message_valid_go m version = Returns (snd (message_valid m version)).
Proof. destruct m; cbn [message_valid_go]; try reflexivity. apply statement_response_returns. Qed.

Lemma add_errs_returns ms version errs :
  add_errs_go ms version errs = Returns (fold_left (fun errs m => add_err errs (plain_err (snd (message_valid m version)))) ms errs).
Proof.
  revert errs. induction ms as [|m ms IH]; intros errs; [reflexivity|]. cbn [add_errs_go fold_left]. rewrite message_valid_returns. cbn [bind_go]. apply IH.
Qed.

Lemma response_valid_returns r : response_valid_go r = Returns (response_valid r).
Proof.
  unfold response_valid_go, response_valid. assert (E : signon_response_valid_go (rs_signon r) = Returns (signon_response_valid (rs_signon r))).
  { unfold signon_response_valid_go, signon_response_valid. rewrite status_valid_returns. destruct (negb _); reflexivity. }
  rewrite E. cbn [bind_go]. rewrite add_errs_returns. reflexivity.
Qed.

Lemma try_lengths_length n k s next r : (forall s r, next s = Some r -> length r = n) -> try_lengths k s next = Some r -> length r = S n.
Proof.
  intros H. induction k as [|k IH]; [discriminate|]. cbn [try_lengths]. destruct (next (skipn (S k) s)) eqn:E; [|exact IH].
  intros [= <-]. cbn [length]. f_equal. eapply H. exact E.
Qed.

Lemma match_entries_length es : forall s r, match_entries es s = Some r -> length r = length es.
Proof.
  induction es as [|[key p] es IH]; intros s r; cbn [match_entries].
  - destruct (str_eqb s (bs "<")); [|discriminate]. intros [= <-]. reflexivity.
  - unfold bind. destruct (after key s) as [s1|]; [|discriminate]. cbv zeta. intros H. cbn [length].
    refine (try_lengths_length _ _ _ _ _ _ H). intros s' r' H'. exact (IH _ _ H').
Qed.

Lemma read_sgml_headers_returns s : read_sgml_headers_go s = Returns (read_sgml_headers s).
Proof.
  unfold read_sgml_headers_go, read_sgml_headers, bind. destruct (index_of (bs "<") s) as [i|]; [|reflexivity].
  destruct (Nat.leb window i); [reflexivity|]. cbv zeta. unfold sgml_submatches. destruct (match_entries _ _) as [vs|] eqn:E; [|reflexivity].
  apply match_entries_length in E. change (length sgml_entries) with 9 in E.
  set (whole := firstn (S i) s). clearbody whole.
  destruct vs as [|v1 [|v2 [|v3 [|v4 [|v5 [|v6 [|v7 [|v8 [|v9 [|]]]]]]]]]]; try discriminate E. clear E.
  assert (X : sgml_loop_go sgml_names 0 [whole; v1; v2; v3; v4; v5; v6; v7; v8; v9] 0%N = Returns (check_sgml [v1; v2; v3; v4; v5; v6; v7; v8; v9])).
  { unfold sgml_names. 
    assert (St : forall name names i ms version value, nth_error ms (S i) = Some value -> 
      sgml_loop_go (name :: names) (S i) ms version = 
        if str_eqb name (bs "OFXHEADER") then
          if negb (str_eqb value (bs "100")) then Returns None else sgml_loop_go names (S (S i)) ms version
        else if str_eqb name (bs "DATA") then
          if negb (str_eqb value (bs "OFXSGML")) then Returns None else sgml_loop_go names (S (S i)) ms version
        else if str_eqb name (bs "VERSION") then
          match enum_from_string enum_ofxVersion value with
          | (v, true) => if (OfxVersion160 <? v)%N then Returns None else sgml_loop_go names (S (S i)) ms v
          | (_, false) => Returns None
          end
        else if str_eqb name (bs "SECURITY") then
          if negb (str_eqb value (bs "NONE") || str_eqb value (bs "TYPE1")) then Returns None else sgml_loop_go names (S (S i)) ms version
        else if str_eqb name (bs "COMPRESSION") then
          if negb (str_eqb value (bs "NONE")) then Returns None else sgml_loop_go names (S (S i)) ms version
        else sgml_loop_go names (S (S i)) ms version).
    { intros name names j ms version value En. cbn [sgml_loop_go Nat.eqb]. unfold at_index. rewrite En. reflexivity. }
    pose (ms := [whole; v1; v2; v3; v4; v5; v6; v7; v8; v9]). fold ms.
    assert (S0 : forall l, sgml_loop_go ([] :: l) 0 ms 0%N = sgml_loop_go l 1 ms 0%N) by reflexivity. rewrite S0. clear S0.
    rewrite (St _ _ 0 ms _ v1 eq_refl). change (str_eqb (bs "OFXHEADER") (bs "OFXHEADER")) with true. cbv iota.
    unfold check_sgml. destruct (negb (str_eqb v1 (bs "100"))); [reflexivity|].
    rewrite (St _ _ 1 ms _ v2 eq_refl). change (str_eqb (bs "DATA") (bs "OFXHEADER")) with false. change (str_eqb (bs "DATA") (bs "DATA")) with true. cbv iota.
    destruct (negb (str_eqb v2 (bs "OFXSGML"))); [reflexivity|].
    rewrite (St _ _ 2 ms _ v3 eq_refl). change (str_eqb (bs "VERSION") (bs "OFXHEADER")) with false. change (str_eqb (bs "VERSION") (bs "DATA")) with false.
    change (str_eqb (bs "VERSION") (bs "VERSION")) with true. cbv iota.
    destruct (enum_from_string enum_ofxVersion v3) as [v [|]]; [|reflexivity]. destruct (OfxVersion160 <? v)%N; [reflexivity|].
    rewrite (St _ _ 3 ms _ v4 eq_refl). change (str_eqb (bs "SECURITY") (bs "OFXHEADER")) with false. change (str_eqb (bs "SECURITY") (bs "DATA")) with false.
    change (str_eqb (bs "SECURITY") (bs "VERSION")) with false. change (str_eqb (bs "SECURITY") (bs "SECURITY")) with true. cbv iota.
    destruct (negb (str_eqb v4 (bs "NONE") || str_eqb v4 (bs "TYPE1"))); [reflexivity|].
    rewrite (St _ _ 4 ms _ v5 eq_refl). change (str_eqb (bs "ENCODING") (bs "OFXHEADER")) with false. change (str_eqb (bs "ENCODING") (bs "DATA")) with false.
    change (str_eqb (bs "ENCODING") (bs "VERSION")) with false. change (str_eqb (bs "ENCODING") (bs "SECURITY")) with false.
    change (str_eqb (bs "ENCODING") (bs "COMPRESSION")) with false. cbv iota.
    rewrite (St _ _ 5 ms _ v6 eq_refl). change (str_eqb (bs "CHARSET") (bs "OFXHEADER")) with false. change (str_eqb (bs "CHARSET") (bs "DATA")) with false.
    change (str_eqb (bs "CHARSET") (bs "VERSION")) with false. change (str_eqb (bs "CHARSET") (bs "SECURITY")) with false.
    change (str_eqb (bs "CHARSET") (bs "COMPRESSION")) with false. cbv iota.
    rewrite (St _ _ 6 ms _ v7 eq_refl). change (str_eqb (bs "COMPRESSION") (bs "OFXHEADER")) with false. change (str_eqb (bs "COMPRESSION") (bs "DATA")) with false.
    change (str_eqb (bs "COMPRESSION") (bs "VERSION")) with false. change (str_eqb (bs "COMPRESSION") (bs "SECURITY")) with false.
    change (str_eqb (bs "COMPRESSION") (bs "COMPRESSION")) with true. cbv iota.
    destruct (negb (str_eqb v7 (bs "NONE"))); [reflexivity|].
    rewrite (St _ _ 7 ms _ v8 eq_refl), (St _ _ 8 ms _ v9 eq_refl). reflexivity. }
  refine (eq_trans (f_equal (fun g => bind_go g _) X) _). reflexivity.
Qed.

Lemma xml_loop_returns fuel : forall headers seen version, xml_header_loop_go fuel headers seen version = Returns (xml_header_loop fuel headers seen version).
Proof.
  induction fuel as [|fuel IH]; intros headers seen version; [reflexivity|]. cbn [xml_header_loop_go xml_header_loop].
  destruct headers as [|c h]; [reflexivity|]. set (hs := c :: h). clearbody hs. cbv zeta. unfold bind, split_n2.
  destruct (split2 (bs "=" ++ [chr 34]) hs) as [[header rest]|]; [|reflexivity]. cbn [length Nat.eqb negb].
  change (at_index [header; rest] 0) with (Returns header). change (at_index [header; rest] 1) with (Returns rest). cbn [bind_go fst snd].
  destruct (split2 [chr 34] rest) as [[value rest2]|]; [|reflexivity]. cbn [length Nat.eqb negb].
  change (at_index [value; rest2] 0) with (Returns value). change (at_index [value; rest2] 1) with (Returns rest2). cbn [bind_go fst snd].
  destruct (str_eqb header (bs "OFXHEADER")); [destruct (str_eqb value (bs "200")); [apply IH|reflexivity]|].
  destruct (str_eqb header (bs "VERSION")).
  - destruct (enum_from_string enum_ofxVersion value) as [v [|]]; [|reflexivity]. destruct (v <? OfxVersion200)%N; [reflexivity|apply IH].
  - destruct (str_eqb header (bs "SECURITY")); [destruct (str_eqb value (bs "NONE")); [apply IH|reflexivity]|].
    destruct (_ || _); [apply IH|reflexivity].
Qed.

Lemma xml_header_returns inst : xml_header_go inst = Returns (xml_header inst).
Proof. apply xml_loop_returns. Qed.
