(** Facts about a Marshal that fails. *)
From Coq Require Import QArith Bool List Lia.
From Verif Require Import GoStr GoStrFacts GoTime Types Enums Records Common Messages Codec Schema Document SpecDocument
  SpecValid ValidFacts DocumentFacts SetsFacts TreeFacts Wire Marshal SpecAttempt.
Close Scope Q_scope.
Open Scope list_scope.

Definition error_of (l : list str) : option goerr := match l with [] => None | x :: _ => Some (EPlain x) end.

Definition sent_filed (p : str * Message) : str * Message := (fst p, sent (snd p)).

Lemma error_of_app a b : error_of (a ++ b) = match error_of a with Some e => Some e | None => error_of b end.
Proof. destruct a; reflexivity. Qed.

(** *** Messages *)

Lemma attempt_messages_ok ms set version :
  match encode_messages ms set version with
  | Some (_, ms') => attempt_messages ms set version = (ms', None)
  | None => snd (attempt_messages ms set version) <> None
  end.
Proof.
  induction ms as [|m ms IH]; cbn [encode_messages attempt_messages]; [reflexivity|].
  destruct (negb (msgtype_eqb (message_type m) set)); [discriminate|].
  destruct (message_valid m version) as [m' [err|]]; [discriminate|].
  destruct (encode_message m') as [a|]; cbn [bind]; [|discriminate].
  destruct (encode_messages ms set version) as [[n ms']|]; cbn [bind fst snd].
  - rewrite IH. reflexivity.
  - exact IH.
Qed.

Lemma attempt_sets_ok tbl version :
  match encode_sets tbl version with
  | Some (_, l) => attempt_sets tbl version = (l, None)
  | None => snd (attempt_sets tbl version) <> None
  end.
Proof.
  induction tbl as [|[ms t] tbl IH]; cbn [encode_sets attempt_sets]; [reflexivity|].
  pose proof (attempt_messages_ok ms t version) as A. unfold encode_set.
  destruct ms as [|m ms]; cbn [null bind].
  - cbn [attempt_messages bind fst snd]. destruct (encode_sets tbl version) as [[n l]|]; cbn [bind fst snd].
    + rewrite IH. reflexivity.
    + exact IH.
  - destruct (encode_messages (m :: ms) t version) as [[n ms']|]; cbn [bind fst snd].
    + rewrite A. destruct (encode_sets tbl version) as [[n2 l]|]; cbn [bind fst snd].
      * rewrite IH. reflexivity.
      * exact IH.
    + destruct (attempt_messages (m :: ms) t version) as [ms' [err|]]; [discriminate | exfalso; apply A; reflexivity].
Qed.

Theorem attempt_marshal q :
  match request_marshal q with
  | Some (_, q') => request_attempt q = (q', None)
  | None => snd (request_attempt q) <> None
  end.
Proof.
  unfold request_marshal, request_tree, request_attempt.
  destruct (signon_request_valid (rq_signon q)) as [sn [err|]]; [discriminate|].
  destruct (encode_signon_request sn) as [k ->]. cbn [bind].
  pose proof (attempt_sets_ok (set_table (rq_slots q) Rq) (rq_version q)) as A.
  destruct (encode_sets (set_table (rq_slots q) Rq) (rq_version q)) as [[n l]|]; cbn [bind fst snd].
  - rewrite A. reflexivity.
  - exact A.
Qed.

Theorem attempt_response r : response_marshal r = None <-> response_attempt r <> None.
Proof.
  unfold response_marshal, response_tree, response_attempt.
  destruct (signon_response_valid (rs_signon r)) as [err|]; [split; [discriminate | reflexivity]|].
  destruct (encode_as SignonResponse_ty (SignonResponse_to (rs_signon r))) as [k|] eqn:E.
  2:{ exfalso. destruct (encode_signon_response (rs_signon r)) as [k E']. congruence. }
  cbn [bind].
  pose proof (attempt_sets_ok (set_table (rs_slots r) Rs) (rs_version r)) as A.
  destruct (encode_sets (set_table (rs_slots r) Rs) (rs_version r)) as [[n l]|]; cbn [bind].
  - rewrite A. split; [discriminate | intros H; exfalso; apply H; reflexivity].
  - split; [intros _; exact A | reflexivity].
Qed.

(** *** The error *)

Lemma bad_name n :
  not_v1 n || null (trim_v1 n) = negb (has_suffix (bs "V1") n) || str_eqb n (bs "V1").
Proof.
  unfold not_v1, trim_v1. destruct (has_suffix (bs "V1") n) eqn:E; cbn [negb orb]; [|reflexivity].
  apply has_suffix_spec in E as [stem ->]. rewrite app_length, Nat.add_sub.
  destruct stem as [|c stem]; [reflexivity|].
  destruct (str_eqb_spec ((c :: stem) ++ bs "V1") (bs "V1")) as [F|_]; [|reflexivity].
  apply (f_equal (@length _)) in F. rewrite app_length in F. change (length (bs "V1")) with 2 in F. cbn [length] in F. lia.
Qed.

Lemma names_error l :
  match find (fun s => negb (has_suffix (bs "V1") (MessageSet_Name s)) || str_eqb (MessageSet_Name s) (bs "V1")) l with
  | Some s => set_names_error (map MessageSet_Name l) =
      (if has_suffix (bs "V1") (MessageSet_Name s) then bs "xml: start tag with no name"
       else bs "Expected MessageSet.Name to end with ""V1""") /\ ~ Forall (fun s => message_set_name (MessageSet_Name s)) l
  | None => Forall (fun s => message_set_name (MessageSet_Name s)) l
  end.
Proof.
  induction l as [|s l IH]; cbn [find map set_names_error]; [constructor|].
  pose proof (bad_name (MessageSet_Name s)) as B. pose proof (good_set_name_iff (MessageSet_Name s)) as G.
  unfold good_set_name in G. rewrite B in G.
  destruct (negb (has_suffix (bs "V1") (MessageSet_Name s)) || str_eqb (MessageSet_Name s) (bs "V1")) eqn:E.
  - split.
    + unfold not_v1 in *. destruct (has_suffix (bs "V1") (MessageSet_Name s)); cbn [negb orb] in *; [rewrite B|]; reflexivity.
    + intros F. inversion F as [|? ? F1 _]; subst. apply G in F1. discriminate F1.
  - apply orb_false_iff in B as [B1 B2]. rewrite B1, B2.
    destruct (find _ l) as [s'|].
    + destruct IH as [IH1 IH2]. split; [exact IH1|]. intros F. inversion F; subst. contradiction.
    + constructor; [apply G; reflexivity | exact IH].
Qed.

Lemma unwritable_spec m :
  match encode_message m with
  | Some _ => unwritable m = None
  | None => exists x, unwritable m = Some x /\ encoding_error m = EPlain x
  end.
Proof.
  pose proof (encode_message_iff m) as E.
  assert (C : unwritable m = None -> encodable m).
  { destruct m; cbn [unwritable encodable]; auto. pose proof (names_error (ProfileResponse_MessageSetList r)) as N.
    destruct (find _ (ProfileResponse_MessageSetList r)); [discriminate | auto]. }
  destruct (encode_message m) as [a|].
  - assert (S : encodable m) by (apply E; discriminate).
    destruct m; cbn [unwritable encodable] in *; auto. pose proof (names_error (ProfileResponse_MessageSetList r)) as N.
    destruct (find _ (ProfileResponse_MessageSetList r)); [destruct N; contradiction | reflexivity].
  - assert (S : ~ encodable m) by (intros H; apply E in H; apply H; reflexivity).
    destruct m; cbn [unwritable encodable encoding_error] in *; try (exfalso; apply S; exact I).
    pose proof (names_error (ProfileResponse_MessageSetList r)) as N.
    destruct (find _ (ProfileResponse_MessageSetList r)).
    + eexists. split; [reflexivity|]. f_equal. apply N.
    + contradiction.
Qed.

Lemma unwritable_sent m : unwritable (sent m) = unwritable m.
Proof. destruct m; reflexivity. Qed.

Lemma encoding_error_sent m : encoding_error (sent m) = encoding_error m.
Proof. destruct m; reflexivity. Qed.

Lemma valid_fails m version m' err : message_valid m version = (m', Some err) -> m' = m.
Proof.
  intros H. destruct (message_valid_effect m version) as [_ E].
  assert (N : ~ message_ok version m).
  { intros K. apply message_valid_iff in K. rewrite H in K. discriminate K. }
  apply E in N. rewrite H in N. exact N.
Qed.

(** The loop over messages: the first complaint, and the messages before it. *)
Lemma attempt_messages_spec version set : forall ms,
  let named := map (fun m => (msgtype_string set, m)) in
  snd (attempt_messages ms set version) = error_of (flat_map (fun p => as_list (complaint version p)) (named ms)) /\
  exists pre rest, named ms = pre ++ rest /\
    named (fst (attempt_messages ms set version)) = map sent_filed pre ++ rest /\
    Forall (fun p => complaint version p = None) pre /\
    match rest with [] => snd (attempt_messages ms set version) = None | p :: _ => complaint version p <> None end.
Proof.
  induction ms as [|m ms IH]; cbv zeta.
  - split; [reflexivity|]. exists [], []. cbn. auto.
  - cbn [attempt_messages map flat_map].
    assert (C : complaint version (msgtype_string set, m) =
      if msgtype_eqb (message_type m) set then
        match snd (message_valid m version) with Some x => Some x | None => unwritable m end
      else Some (bs "Expected " ++ msgtype_string set ++ bs " message , found " ++ msgtype_string (message_type m))).
    { unfold complaint. cbn [fst snd]. rewrite belongs_in_type.
      destruct (msgtype_eqb (message_type m) set) eqn:E.
      - apply msgtype_eqb_eq in E. rewrite E, str_eqb_refl. reflexivity.
      - destruct (str_eqb_spec (msgtype_string (message_type m)) (msgtype_string set)) as [F|_]; [|reflexivity].
        apply msgtype_string_inj in F. apply msgtype_eqb_eq in F. congruence. }
    rewrite C.
    destruct (msgtype_eqb (message_type m) set) eqn:Et; cbn [negb].
    2:{ split; [reflexivity|].
        exists [], ((msgtype_string set, m) :: map (fun m => (msgtype_string set, m)) ms). cbn [app map fst snd].
        repeat split; auto. rewrite C. discriminate. }
    destruct (message_valid m version) as [m' [err|]] eqn:Ev; cbn [snd] in *.
    { split; [reflexivity|]. rewrite (valid_fails _ _ _ _ Ev).
      exists [], ((msgtype_string set, m) :: map (fun m => (msgtype_string set, m)) ms). cbn [app map fst snd].
      repeat split; auto. rewrite C. discriminate. }
    pose proof (message_valid_sent _ _ _ Ev) as Em. subst m'.
    pose proof (unwritable_spec (sent m)) as U. rewrite unwritable_sent in U.
    destruct (encode_message (sent m)) as [a|].
    + rewrite U in *. cbn [as_list app fst snd map]. destruct IH as (I1 & pre & rest & I2 & I3 & I4 & I5).
      split; [exact I1|]. exists ((msgtype_string set, m) :: pre), rest. cbn [app map sent_filed fst snd].
      rewrite I2, I3. repeat split; auto.
    + destruct U as (x & U & V). rewrite U in *. cbn [as_list app snd]. split; [rewrite V; reflexivity|].
      exists [], ((msgtype_string set, m) :: map (fun m => (msgtype_string set, m)) ms). cbn [app map fst snd].
      assert (Em : sent m = m).
      { destruct m; try reflexivity. discriminate U. }
      rewrite Em. repeat split; auto. rewrite C. discriminate.
Qed.

Lemma filed_cons n ms sets : filed ((n, ms) :: sets) = map (fun m => (n, m)) ms ++ filed sets.
Proof. reflexivity. Qed.

Lemma attempt_sets_spec version : forall tbl,
  let l := fst (attempt_sets tbl version) in
  snd (attempt_sets tbl version) = error_of (flat_map (fun p => as_list (complaint version p)) (filed (named_table tbl))) /\
  length l = length tbl /\
  exists pre rest, filed (named_table tbl) = pre ++ rest /\
    filed (named_table (combine l (map snd tbl))) = map sent_filed pre ++ rest /\
    Forall (fun p => complaint version p = None) pre /\
    match rest with [] => snd (attempt_sets tbl version) = None | p :: _ => complaint version p <> None end.
Proof.
  induction tbl as [|[ms t] tbl IH]; cbv zeta.
  - split; [reflexivity|]. split; [reflexivity|]. exists [], []. cbn. auto.
  - cbn [attempt_sets named_table map fst snd]. rewrite filed_cons, flat_map_app, error_of_app.
    destruct (attempt_messages_spec version t ms) as (A1 & pre & rest & A2 & A3 & A4 & A5).
    destruct (attempt_messages ms t version) as [ms' [err|]]; cbn [fst snd] in *.
    + split; [rewrite <- A1; reflexivity|]. split; [cbn [length]; rewrite map_length; reflexivity|].
      exists pre, (rest ++ filed (named_table tbl)).
      cbn [combine map named_table fst snd]. rewrite filed_cons, A2, A3, <- !app_assoc. repeat split; auto.
      * do 2 f_equal. assert (Cb : combine (map fst tbl) (map snd tbl) = tbl).
        { clear. induction tbl as [|[a b] tbl IH]; [reflexivity|]. cbn. rewrite IH. reflexivity. }
        rewrite Cb. reflexivity.
      * destruct rest as [|p rest]; [discriminate A5 | exact A5].
    + destruct rest as [|p rest].
      2:{ exfalso. rewrite A2 in A1. rewrite flat_map_app, error_of_app in A1. cbn [flat_map] in A1.
          destruct (error_of (flat_map (fun p => as_list (complaint version p)) pre)); [discriminate|].
          destruct (complaint version p); [discriminate | congruence]. }
      rewrite app_nil_r in A2, A3. rewrite <- A1. destruct IH as (I1 & I2 & pre2 & rest2 & I3 & I4 & I5 & I6).
      split; [exact I1|]. split; [cbn [length]; rewrite I2; reflexivity|].
      exists (pre ++ pre2), rest2. cbn [combine map named_table fst snd]. rewrite filed_cons, A2, A3.
      fold (named_table tbl) in *. fold (named_table (combine (fst (attempt_sets tbl version)) (map snd tbl))).
      rewrite I3, I4, map_app, <- !app_assoc. repeat split; auto. apply Forall_app. auto.
Qed.

Lemma error_of_as_list o l : error_of (as_list o ++ l) = match o with Some x => Some (EPlain x) | None => error_of l end.
Proof. destruct o; reflexivity. Qed.

Theorem request_error q : snd (request_attempt q) = error_of (request_complaints q).
Proof.
  unfold request_attempt, request_complaints. rewrite error_of_as_list.
  destruct (signon_request_valid (rq_signon q)) as [sn [err|]]; cbn [snd]; [reflexivity|].
  rewrite <- request_table. apply (attempt_sets_spec (rq_version q)).
Qed.

Theorem response_error r : response_attempt r = error_of (response_complaints r).
Proof.
  unfold response_attempt, response_complaints. rewrite error_of_as_list.
  destruct (signon_response_valid (rs_signon r)) as [err|]; [reflexivity|].
  rewrite <- response_table. apply (attempt_sets_spec (rs_version r)).
Qed.

Lemma slots_table l : length l = 14 ->
  named_table (combine l (map snd (set_table no_messages Rq))) = request_sets (slots_of_list l).
Proof.
  intros H. do 14 (destruct l as [|? l]; [discriminate H|]). destruct l; [reflexivity | discriminate H].
Qed.

Lemma signon_after r : fst (signon_request_valid r) = r \/ fst (signon_request_valid r) = sent_signon r.
Proof.
  unfold signon_request_valid. cbv zeta.
  repeat match goal with |- context[if ?b then _ else _] =>
    match b with empty _ => fail 1 | _ => destruct b; [left; reflexivity|] end end.
  destruct (SignonRequest_Language r) as [|c l] eqn:L.
  - cbn [empty length Nat.eqb]. right. unfold sent_signon. rewrite L.
    cbn [SignonRequest_AppID SignonRequest_AppVer]. repeat match goal with |- context[if ?b then _ else _] => destruct b end; reflexivity.
  - cbn [empty length Nat.eqb]. left. repeat match goal with |- context[if ?b then _ else _] => destruct b end; reflexivity.
Qed.

Theorem request_filled_in q : filled_in q (request_after q).
Proof.
  unfold filled_in, request_after, request_attempt.
  pose proof (signon_after (rq_signon q)) as SA.
  destruct (signon_request_valid (rq_signon q)) as [sn [err|]] eqn:Es;
    cbn [fst snd rq_url rq_version rq_indent rq_cr rq_signon rq_slots] in *;
    (do 4 (split; [reflexivity|])); (split; [exact SA|]).
  - exists [], (filed (request_sets (rq_slots q))). cbn [app map]. repeat split; auto.
    destruct (filed (request_sets (rq_slots q))); [exact I|]. left. discriminate.
  - destruct (attempt_sets_spec (rq_version q) (set_table (rq_slots q) Rq)) as (_ & L & pre & rest & A2 & A3 & A4 & A5).
    rewrite request_table in A2. exists pre, rest. split; [exact A2|].
    split. { rewrite <- slots_table by exact L. exact A3. }
    split; [exact A4|]. split; [congruence|]. destruct rest; [exact I | right; exact A5].
Qed.

(** *** Trying again *)

Lemma attempt_messages_again version set : forall ms,
  attempt_messages (fst (attempt_messages ms set version)) set version = attempt_messages ms set version.
Proof.
  induction ms as [|m ms IH]; [reflexivity|]. cbn [attempt_messages].
  destruct (msgtype_eqb (message_type m) set) eqn:Et; cbn [negb].
  2:{ cbn [fst attempt_messages]. rewrite Et. reflexivity. }
  destruct (message_valid m version) as [m' [err|]] eqn:Ev.
  { pose proof (valid_fails _ _ _ _ Ev). subst m'. cbn [fst attempt_messages]. rewrite Et, Ev. reflexivity. }
  pose proof (message_valid_sent _ _ _ Ev). subst m'.
  assert (Ts : message_type (sent m) = message_type m) by (destruct m; reflexivity).
  destruct (encode_message (sent m)) as [a|] eqn:Ea; cbn [fst snd attempt_messages];
    rewrite Ts, Et; cbn [negb]; rewrite (sent_valid _ _ _ Ev), Ea.
  - rewrite IH. reflexivity.
  - reflexivity.
Qed.

Lemma attempt_sets_again version : forall tbl,
  attempt_sets (combine (fst (attempt_sets tbl version)) (map snd tbl)) version = attempt_sets tbl version.
Proof.
  induction tbl as [|[ms t] tbl IH]; [reflexivity|]. cbn [attempt_sets].
  pose proof (attempt_messages_again version t ms) as A.
  destruct (attempt_messages ms t version) as [ms' [err|]]; cbn [fst snd map combine attempt_sets] in *; rewrite A.
  - assert (Cb : combine (map fst tbl) (map snd tbl) = tbl).
    { clear. induction tbl as [|[a b] tbl IH]; [reflexivity|]. cbn. rewrite IH. reflexivity. }
    rewrite Cb. reflexivity.
  - rewrite IH. reflexivity.
Qed.

Lemma signon_twice r : signon_request_valid (fst (signon_request_valid r)) = signon_request_valid r.
Proof.
  destruct r as [dt user pass key gen lang org fid appid appver uid].
  unfold signon_request_valid at 2 3. cbv zeta.
  cbn [SignonRequest_DtClient SignonRequest_UserID SignonRequest_UserPass SignonRequest_UserKey SignonRequest_GenUserKey
       SignonRequest_Language SignonRequest_Org SignonRequest_Fid SignonRequest_AppID SignonRequest_AppVer SignonRequest_ClientUID].
  destruct lang as [|c lang].
  - cbn [empty length Nat.eqb negb andb].
    cbn [SignonRequest_DtClient SignonRequest_UserID SignonRequest_UserPass SignonRequest_UserKey SignonRequest_GenUserKey
       SignonRequest_Language SignonRequest_Org SignonRequest_Fid SignonRequest_AppID SignonRequest_AppVer SignonRequest_ClientUID].
    repeat match goal with |- context[if ?b then _ else _] => let F := fresh "F" in destruct b eqn:F end;
    cbn [fst]; unfold signon_request_valid; cbv zeta; cbn [SignonRequest_DtClient SignonRequest_UserID SignonRequest_UserPass SignonRequest_UserKey SignonRequest_GenUserKey
       SignonRequest_Language SignonRequest_Org SignonRequest_Fid SignonRequest_AppID SignonRequest_AppVer SignonRequest_ClientUID];
    repeat match goal with H : ?b = _ |- context[if ?b then _ else _] => rewrite H end;
    change (empty (bs "ENG")) with false; change (length (bs "ENG")) with 3; cbn [negb andb Nat.eqb]; cbv iota;
    cbn [SignonRequest_AppID SignonRequest_AppVer];
    repeat match goal with H : ?b = _ |- context[if ?b then _ else _] => rewrite H end; reflexivity.
  - change (empty (c :: lang)) with false; cbv iota.
    repeat match goal with |- context[if ?b then _ else _] => let F := fresh "F" in destruct b eqn:F end;
    cbn [fst]; unfold signon_request_valid; cbv zeta; cbn [SignonRequest_DtClient SignonRequest_UserID SignonRequest_UserPass SignonRequest_UserKey SignonRequest_GenUserKey
       SignonRequest_Language SignonRequest_Org SignonRequest_Fid SignonRequest_AppID SignonRequest_AppVer SignonRequest_ClientUID];
    repeat match goal with H : ?b = _ |- context[if ?b then _ else _] => rewrite H end; change (empty (c :: lang)) with false; cbv iota;
    repeat match goal with H : ?b = _ |- context[if ?b then _ else _] => rewrite H end; reflexivity.
Qed.

Theorem attempt_again q : request_attempt (request_after q) = request_attempt q.
Proof.
  unfold request_after. unfold request_attempt at 2 3.
  pose proof (signon_twice (rq_signon q)) as S.
  destruct (signon_request_valid (rq_signon q)) as [sn [err|]] eqn:Es; cbn [fst] in *.
  - unfold request_attempt. cbn [rq_url rq_version rq_indent rq_cr rq_signon rq_slots]. rewrite S. reflexivity.
  - unfold request_attempt. cbn [rq_url rq_version rq_indent rq_cr rq_signon rq_slots]. rewrite S. cbv zeta.
    assert (T : set_table (slots_of_list (fst (attempt_sets (set_table (rq_slots q) Rq) (rq_version q)))) Rq =
                combine (fst (attempt_sets (set_table (rq_slots q) Rq) (rq_version q))) (map snd (set_table (rq_slots q) Rq))).
    { destruct (attempt_sets_spec (rq_version q) (set_table (rq_slots q) Rq)) as (_ & L & _).
      revert L. generalize (fst (attempt_sets (set_table (rq_slots q) Rq) (rq_version q))). intros l L.
      do 14 (destruct l as [|? l]; [discriminate L|]). destruct l; [reflexivity | discriminate L]. }
    rewrite T, attempt_sets_again. reflexivity.
Qed.

Theorem marshal_again q : request_marshal (request_after q) = request_marshal q.
Proof.
  pose proof (attempt_marshal q) as A. pose proof (attempt_marshal (request_after q)) as B.
  rewrite attempt_again in B.
  destruct (request_marshal q) as [[b q']|] eqn:E.
  - unfold request_after. rewrite A. cbn [fst].
    unfold request_marshal in *. destruct (request_tree q) as [[t q2]|] eqn:T; [|discriminate]. cbn [bind fst snd] in E.
    injection E as <- <-. rewrite (request_tree_again _ _ _ T). cbn [bind fst snd].
    pose proof (request_filled_in q) as (_ & V & I & C & _). unfold request_after in *. rewrite A in *. cbn [fst] in *.
    rewrite V, C. unfold request_style. rewrite I. rewrite ?V, ?C. reflexivity.
  - destruct (request_marshal (request_after q)) as [[b2 q2]|]; [|reflexivity].
    exfalso. apply A. rewrite B. reflexivity.
Qed.

(** *** Together *)

Lemma error_of_hd l : error_of l = option_map EPlain (hd_error l).
Proof. destruct l; reflexivity. Qed.

Theorem request_reports q :
  (request_marshal q = None <-> request_complaints q <> []) /\
  snd (request_attempt q) = option_map EPlain (hd_error (request_complaints q)).
Proof.
  pose proof (request_error q) as E. pose proof (attempt_marshal q) as A. split; [|rewrite E; apply error_of_hd].
  destruct (request_marshal q) as [[b q']|].
  - split; [discriminate|]. intros H. exfalso. rewrite A in E. destruct (request_complaints q); [contradiction|discriminate E].
  - split; [|reflexivity]. intros _ H. rewrite H in E. contradiction.
Qed.

Theorem response_reports r :
  (response_marshal r = None <-> response_complaints r <> []) /\
  response_attempt r = option_map EPlain (hd_error (response_complaints r)).
Proof.
  pose proof (response_error r) as E. split; [|rewrite E; apply error_of_hd].
  rewrite (attempt_response r), E. destruct (response_complaints r); cbn [error_of]; split; intros H; congruence.
Qed.

Theorem request_effect q : filled_in q (request_after q) /\
  forall b q', request_marshal q = Some (b, q') -> request_after q = q'.
Proof.
  split; [apply request_filled_in|]. intros b q' E. pose proof (attempt_marshal q) as A. rewrite E in A.
  unfold request_after. rewrite A. reflexivity.
Qed.

Theorem request_retry q :
  request_marshal (request_after q) = request_marshal q /\ request_attempt (request_after q) = request_attempt q.
Proof. split; [apply marshal_again | apply attempt_again]. Qed.
