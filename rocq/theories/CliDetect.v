(** detect-settings tries every combination once, in order; and which commands can crash. *)
From Coq Require Import QArith Lia Bool ZifyBool ZifyNat ZifyN.
From Verif Require Import GoStr SpecStr GoStrFacts GoNum GoUint GoTime Types Enums EnumTables EnumFacts Records Common Messages Codec Schema
  Document SpecDocument SetsFacts TreeFacts Wire WireFacts Marshal SpecAttempt AttemptFacts Url Clients SpecClients ClientFacts SpecUrl SpecValid SendFacts Cli SpecCli SpecFlags CliFacts CliRuns FlagFacts.
Close Scope Q_scope.

Definition with_user (q : Request) (user pass : str) : Request :=
  let s := rq_signon q in
  mkRequest (rq_url q) (rq_version q)
    (mkSignonRequest (SignonRequest_DtClient s) user pass (SignonRequest_UserKey s)
       (SignonRequest_GenUserKey s) (SignonRequest_Language s) (SignonRequest_Org s) (SignonRequest_Fid s)
       (SignonRequest_AppID s) (SignonRequest_AppVer s) (SignonRequest_ClientUID s))
    (rq_slots q) (rq_indent q) (rq_cr q).

Lemma signon_language d u p k g o f a v c :
  signon_request_valid (mkSignonRequest d u p k g (bs "ENG") o f a v c) = signon_request_valid (mkSignonRequest d u p k g [] o f a v c) \/
  (exists r1 r2 e, signon_request_valid (mkSignonRequest d u p k g (bs "ENG") o f a v c) = (r1, Some e) /\
     signon_request_valid (mkSignonRequest d u p k g [] o f a v c) = (r2, Some e)).
Proof.
  unfold signon_request_valid, invalid. cbn [SignonRequest_UserID SignonRequest_UserPass SignonRequest_UserKey SignonRequest_Language
    SignonRequest_DtClient SignonRequest_GenUserKey SignonRequest_Org SignonRequest_Fid SignonRequest_AppID SignonRequest_AppVer SignonRequest_ClientUID].
  change (empty (bs "ENG")) with false. change (empty []) with true. change (Nat.eqb (length (bs "ENG")) 3) with true.
  cbn [negb andb].
  repeat match goal with |- context[if ?b then _ else _] => destruct b end; eauto 6.
Qed.

(** The request that comes back from the first attempt. *)
Definition asked (m : machine) (st : settings) (user pass uid lang routing : str) (now : gotime) (c : client) : Request :=
  mkRequest (st_serverURL st) (client_version c)
    (mkSignonRequest now user pass [] false lang (st_org st) (st_fid st) (client_id c) (client_appver c) (st_clientUID st))
    (mkSlots [] [] [] [] [] [] [] [] [] [] [] [] [MsgProfileRequest (mkProfileRequest uid [] [] routing (unix_epoch m))] [])
    (client_indent c) (client_cr c).

Lemma attempt_profile uid dt v : exists routing,
  fst (attempt_messages [MsgProfileRequest (mkProfileRequest uid [] [] [] dt)] (MProf, Rq) v) =
  [MsgProfileRequest (mkProfileRequest uid [] [] routing dt)].
Proof.
  cbn [attempt_messages].
  change (negb (msgtype_eqb (message_type (MsgProfileRequest (mkProfileRequest uid [] [] [] dt))) (MProf, Rq))) with false. cbv iota.
  cbn [message_valid]. unfold profile_request_valid.
  cbn [ProfileRequest_TrnUID ProfileRequest_CltCookie ProfileRequest_TAN ProfileRequest_DtProfUp].
  destruct (uid_validity uid); [exists []; reflexivity|]. exists (bs "NONE"). destruct (encode_message _); reflexivity.
Qed.

Lemma attempt_empty t tbl v : fst (attempt_sets (([], t) :: tbl) v) = [] :: fst (attempt_sets tbl v).
Proof. reflexivity. Qed.
Lemma attempt_one ms t tbl v : Forall (fun p => fst p = []) tbl ->
  fst (attempt_sets ((ms, t) :: tbl) v) = fst (attempt_messages ms t v) :: map fst tbl.
Proof.
  intros H. cbn [attempt_sets]. destruct (attempt_messages ms t v) as [ms' [err|]]; [reflexivity|]. cbn [fst]. f_equal.
  induction H as [|[l t'] tbl E _ IH]; [reflexivity|]. cbn [fst] in E. subst l. rewrite attempt_empty, IH. reflexivity.
Qed.

Lemma one_profile uid dt v : exists routing,
  slots_of_list (fst (attempt_sets (set_table
    (mkSlots [] [] [] [] [] [] [] [] [] [] [] [] [MsgProfileRequest (mkProfileRequest uid [] [] [] dt)] []) Rq) v)) =
  mkSlots [] [] [] [] [] [] [] [] [] [] [] [] [MsgProfileRequest (mkProfileRequest uid [] [] routing dt)] [].
Proof.
  destruct (attempt_profile uid dt v) as [routing H]. exists routing.
  unfold set_table. cbn [sl_signup sl_bank sl_creditcard sl_loan sl_invstmt sl_interxfer sl_wirexfer sl_billpay
      sl_email sl_seclist sl_presdir sl_presdlv sl_prof sl_image].
  do 12 rewrite attempt_empty. rewrite attempt_one by (repeat constructor). rewrite H. reflexivity.
Qed.

Lemma asked_first m st user pass uid now c : set_client_fields now c (profile_query m st user pass uid) = asked m st user pass uid [] [] now c.
Proof. reflexivity. Qed.

Lemma asked_after m st user pass uid now c : exists lang routing, (lang = [] \/ lang = bs "ENG") /\
  request_after (set_client_fields now c (profile_query m st user pass uid)) = asked m st user pass uid lang routing now c.
Proof.
  rewrite asked_first. unfold request_after, request_attempt. unfold asked at 1 2 3. cbn [rq_signon].
  match goal with |- context[signon_request_valid ?s] => set (s0 := s); pose proof (signon_after s0) as A end.
  assert (B : exists lang, (lang = [] \/ lang = bs "ENG") /\ fst (signon_request_valid s0) =
    mkSignonRequest now user pass [] false lang (st_org st) (st_fid st) (client_id c) (client_appver c) (st_clientUID st)).
  { destruct A as [-> | ->]; [exists []|exists (bs "ENG")]; auto. }
  destruct B as (lang & Hl & B). destruct (signon_request_valid s0) as [sn [err|]]; cbn [fst] in B; subst sn.
  - exists lang, []. split; [exact Hl|]. reflexivity.
  - destruct (one_profile uid (unix_epoch m) (client_version c)) as [routing Hr].
    exists lang, routing. split; [exact Hl|]. cbn [fst rq_slots rq_version rq_url rq_indent rq_cr asked]. rewrite Hr. reflexivity.
Qed.

Lemma again_same m st c u p uid t1 q1 t2 user pass :
  q1 = request_after (set_client_fields t1 c (profile_query m st u p uid)) ->
  request_tree (set_client_fields t2 c (with_user q1 user pass)) = request_tree (set_client_fields t2 c (profile_query m st user pass uid)).
Proof.
  intros ->. destruct (asked_after m st u p uid t1 c) as (lang & routing & Hl & ->).
  unfold request_tree, set_client_fields, with_user, asked, profile_query.
  cbn [rq_url rq_version rq_signon rq_slots rq_indent rq_cr SignonRequest_UserID SignonRequest_UserPass SignonRequest_UserKey SignonRequest_Language
    SignonRequest_DtClient SignonRequest_GenUserKey SignonRequest_Org SignonRequest_Fid SignonRequest_AppID SignonRequest_AppVer SignonRequest_ClientUID].
  assert (E : forall v, encode_sets (set_table (mkSlots [] [] [] [] [] [] [] [] [] [] [] [] [MsgProfileRequest (mkProfileRequest uid [] [] routing (unix_epoch m))] []) Rq) v =
    encode_sets (set_table (mkSlots [] [] [] [] [] [] [] [] [] [] [] [] [MsgProfileRequest (mkProfileRequest uid [] [] [] (unix_epoch m))] []) Rq) v).
  { intros v. unfold set_table. cbn [sl_signup sl_bank sl_creditcard sl_loan sl_invstmt sl_interxfer sl_wirexfer sl_billpay
      sl_email sl_seclist sl_presdir sl_presdlv sl_prof sl_image encode_sets encode_set null bind fst snd].
    assert (E : forall a b s v, encode_messages [MsgProfileRequest (mkProfileRequest uid [] [] a b)] s v =
      encode_messages [MsgProfileRequest (mkProfileRequest uid [] [] [] b)] s v).
    { intros a b' s v'. unfold encode_messages, message_valid, profile_request_valid. cbn [ProfileRequest_TrnUID ProfileRequest_CltCookie ProfileRequest_TAN ProfileRequest_DtProfUp].
      destruct (uid_validity uid); reflexivity. }
    rewrite (E routing). reflexivity. }
  destruct Hl as [-> | ->].
  - destruct (signon_request_valid _) as [sn [?|]]; [reflexivity|]. rewrite E. reflexivity.
  - destruct (signon_language t2 user pass [] false (st_org st) (st_fid st) (client_id c) (client_appver c) (st_clientUID st)) as [->|(r1 & r2 & e & -> & ->)];
      [|reflexivity].
    destruct (signon_request_valid _) as [sn [?|]]; [reflexivity|]. rewrite E. reflexivity.
Qed.

Lemma again_document m st c u p uid t1 q1 t2 user pass b :
  q1 = request_after (set_client_fields t1 c (profile_query m st u p uid)) ->
  client_document t2 c (with_user q1 user pass) b -> client_document t2 c (profile_query m st user pass uid) b.
Proof.
  intros H (t & q' & t' & n & H1 & H2). rewrite (again_same m st c u p uid t1 q1 t2 user pass H) in H1. exists t, q', t', n. auto.
Qed.

Lemma client_request_left w e c q tr x q' : runs (client_request w e c q) tr (x, q') ->
  carries tr (client_document (w_now w) c q) /\
  q' = request_after (set_client_fields (w_now w) c q).
Proof.
  intros H. unfold client_request in H. apply runs_andthen in H as (tr1 & [o q1] & tr2 & H1 & H2 & ->).
  apply runs_done_inv in H2 as [-> H2]. injection H2 as _ ->. cbn [snd]. rewrite app_nil_r. split; [exact (no_parse_carries _ _ _ _ _ _ H1)|].
  apply no_parse_bytes in H1. destruct (request_marshal _) as [[b q2]|] eqn:E; [|apply H1]. destruct H1 as [_ ->].
  symmetry. exact (proj2 (request_effect _) _ _ E).
Qed.

Lemma client_reports w e c q tr r err q' : runs (client_request w e c q) tr ((r, err), q') ->
  let q1 := set_client_fields (w_now w) c q in
  filled_in q1 q' /\
  (request_complaints q1 <> [] -> tr = [] /\ r = None /\ err = option_map EPlain (hd_error (request_complaints q1))).
Proof.
  intros H q1. split.
  - apply client_request_left in H as [_ ->]. apply request_filled_in.
  - intros Hc. destruct (request_reports q1) as [Hm He]. apply Hm in Hc.
    unfold client_request in H. apply runs_andthen in H as (tr1 & [o q2] & tr2 & H1 & H2 & ->).
    apply runs_done_inv in H2 as [-> H2]. cbn [fst snd] in H2. rewrite app_nil_r.
    apply no_parse_runs in H1 as [(_ & -> & ->)|(b & tr' & o1 & E & _)]; [|unfold q1 in Hc; congruence].
    injection H2 as -> -> _. repeat split. rewrite <- He. unfold marshal_failure. fold q1.
    rewrite He. pose proof (proj1 Hm Hc). destruct (request_complaints q1); [contradiction|reflexivity].
Qed.

(** ** One attempt *)

(** When the profile request is sent. *)
Definition fits (x : combination) : Prop := len_between 1 5 (cb_app x) /\ len_between 1 4 (cb_appver x).

Lemma combination_fields st x : fits x -> bc_HTTPClient (basic_of (combination_client st x)) = None /\
  client_id (combination_client st x) = cb_app x /\ client_appver (combination_client st x) = cb_appver x.
Proof.
  intros [H1 H2]. unfold client_id, client_appver, combination_client. generalize (st_serverURL st). intros u.
  assert (E : forall bc, basic_of (get_client u bc) = bc).
  { intros bc. unfold get_client. generalize (trim_char "/"%char u). intros t.
    generalize (str_eqb (bs "https://ofx.discovercard.com") t) (str_eqb (bs "https://vesnc.vanguard.com/us/OfxDirectConnectServlet") t).
    intros [] []; reflexivity. }
  rewrite E. cbn [bc_HTTPClient bc_AppID bc_AppVer]. unfold len_between in *. split; [reflexivity|].
  destruct (cb_app x), (cb_appver x); cbn [length] in *; try lia. split; reflexivity.
Qed.

Lemma profile_fits m st x user pass uid t : fits x -> uid_ok uid ->
  (request_tree (set_client_fields t (combination_client st x) (profile_query m st user pass uid)) <> None <->
   len_between 1 32 user /\ len_between 1 32 pass).
Proof.
  intros Hx Hu. rewrite <- marshal_trees, marshal_tree. destruct (combination_fields st x Hx) as (_ & E1 & E2). destruct Hx as [L1 L2].
  assert (P : (pass <> [] /\ @nil ascii = [] \/ pass = [] /\ @nil ascii <> []) <-> 1 <= length pass).
  { destruct pass as [|a p]; cbn [length]; [|split; [lia|intros _; left; split; [discriminate|reflexivity]]].
    split; [intros [[X _]|[_ X]]; exfalso; apply X; reflexivity|lia]. }
  pose proof (profile_acceptable (client_version (combination_client st x)) uid [] (unix_epoch m) Hu) as Ha.
  unfold set_client_fields, profile_query, signon_ok, len_between in *.
  cbn [rq_signon rq_slots rq_version SignonRequest_UserID SignonRequest_UserPass SignonRequest_UserKey SignonRequest_Language SignonRequest_AppID SignonRequest_AppVer].
  rewrite E1, E2, P. cbn [length]. split.
  - intros [(X1 & X2 & X3 & _) _]. split; [exact X1|lia].
  - intros [X1 X2]. split; [|exact Ha]. repeat (split; [lia || (left; reflexivity) || assumption|]). lia.
Qed.

Lemma ask_exchanged m st x q tr y t q' user pass uid : fits x -> uid_ok uid ->
  rq_url q = st_serverURL st -> SignonRequest_UserID (rq_signon q) = user -> SignonRequest_UserPass (rq_signon q) = pass ->
  request_tree (set_client_fields t (combination_client st x) q) =
  request_tree (set_client_fields t (combination_client st x) (profile_query m st user pass uid)) ->
  runs (client_request (world_at m t) (m_env m) (combination_client st x) q) tr (y, q') ->
  (snd y = None /\ exchanged m st x q t tr true) \/ (exists err, snd y = Some err /\ exchanged m st x q t tr false).
Proof.
  intros Hx Hu E1 E2 E3 Et H. pose proof (proj1 (client_request_left _ _ _ _ _ _ _ H)) as Hc.
  assert (Hs : tr <> [] <-> (exists host path, names (rq_url q) host path) /\
    len_between 1 32 (SignonRequest_UserID (rq_signon q)) /\ len_between 1 32 (SignonRequest_UserPass (rq_signon q))).
  { destruct (client_request_runs _ _ _ _ _ _ _ H) as (o & Hr & _).
    apply no_parse_sends in Hr; [|exact (proj1 (combination_fields st x Hx))]. rewrite Hr, marshal_trees.
    change (w_now (world_at m t)) with t. rewrite Et, (profile_fits m st x user pass uid t Hx Hu), E2, E3. clear. tauto. }
  apply client_request_answer in H as [(r & -> & H)|(err & -> & H)].
  - left. split; [reflexivity|]. split; [exact Hc|]. split; [|exact Hs]. split; eauto.
  - right. exists err. split; [reflexivity|]. split; [exact Hc|]. split; [|exact Hs]. split; [discriminate|]. intros [r Hr]. destruct (H r Hr).
Qed.

Lemma try_profile_runs m st x l e : fits x -> enum_new enum_ofxVersion (fst (cb_version x)) = (snd (cb_version x), true) ->
  io_runs (try_profile m st (cb_app x) (cb_appver x) (fst (cb_version x)) (cb_noindent x)) l e ->
  (exists ok, e = Finished ok /\ attempted m st x l ok) \/
  (exists r err, random_uid r = None /\ e = Exited 1 /\
     l = [ERand r; EPrint (bs "Error creating uid for transaction: " ++ m_error m err ++ [chr 10])]).
Proof.
  intros Hf Ev H. unfold try_profile in H. rewrite Ev in H.
  apply io_runs_bind in H as [(uid & l1 & l2 & H1 & H & ->)|[(c & -> & H)|[-> H]]]; [|apply new_uid_runs in H as (r & [(uid & _ & E & _)|(Hr & E & s & ->)])..]; try discriminate.
  2:{ injection E as ->. right. eauto 6. }
  apply new_uid_runs in H1 as (r & [(u & Hr & E & ->)|(_ & E & _)]); [|discriminate]. injection E as <-. left.
  change (empty_request st (profile_message uid (unix_epoch m))) with (profile_query m st (st_username st) (st_password st) uid) in H.
  change (get_client _ _) with (combination_client st x) in H.
  apply io_runs_bind in H as [(y & l3 & l4 & H1 & H & ->)|[(c & -> & H)|[-> H]]]; [|apply ask_runs in H as (? & ? & ? & _ & E & _); discriminate..].
  apply ask_runs in H1 as (t1 & tr1 & y' & -> & E & H1). injection E as <-. destruct y as [y q1].
  pose proof (proj2 (client_request_left _ _ _ _ _ _ _ H1)) as Hq.
  apply (ask_exchanged m st x (profile_query m st (st_username st) (st_password st) uid) _ _ t1 _ (st_username st) (st_password st) uid Hf (uid_length _ _ Hr) eq_refl eq_refl eq_refl eq_refl) in H1 as [[Ey H1]|(err & Ey & H1)]; cbn [fst snd] in H; rewrite Ey in H.
  - apply io_return_inv in H as [-> ->]. exists true. split; [reflexivity|]. exists r, uid, t1, tr1, true. rewrite app_nil_r. auto 8.
  - change (mkRequest _ _ _ _ _ _) with (with_user q1 anonymous anonymous) in H.
    apply io_runs_bind in H as [(z & l5 & l6 & H2 & H & ->)|[(c & -> & H)|[-> H]]]; [|apply ask_runs in H as (? & ? & ? & _ & E & _); discriminate..].
    apply ask_runs in H2 as (t2 & tr2 & z' & -> & E & H2). injection E as <-. destruct z as [z q2].
    apply io_return_inv in H as [-> ->]. cbn [fst snd]. exists (match snd z with None => true | Some _ => false end). split; [reflexivity|].
    exists r, uid, t1, tr1, false. split; [exact Hr|]. split; [exact H1|]. right. split; [reflexivity|]. exists t2, tr2. split.
    + assert (Hurl : rq_url (with_user q1 anonymous anonymous) = st_serverURL st).
      { rewrite Hq. destruct (asked_after m st (st_username st) (st_password st) uid (w_now (world_at m t1)) (combination_client st x)) as (lang & routing & _ & ->). reflexivity. }
      assert (Hx : forall ok, exchanged m st x (with_user q1 anonymous anonymous) t2 tr2 ok ->
        exchanged m st x (profile_query m st anonymous anonymous uid) t2 tr2 ok).
      { intros ok (Hc & Ho & Hs). split; [|split; [exact Ho|]].
        - revert Hc. apply carries_weaken. intros b. eapply again_document. exact Hq.
        - rewrite Hurl in Hs. exact Hs. }
      apply Hx. apply (ask_exchanged m st x (with_user q1 anonymous anonymous) _ _ t2 _ anonymous anonymous uid Hf (uid_length _ _ Hr) Hurl eq_refl eq_refl (again_same _ _ _ _ _ _ _ _ _ _ _ Hq)) in H2 as [[-> H2]|(err2 & -> & H2)]; exact H2.
    + rewrite app_nil_r. cbn [app]. reflexivity.
Qed.

(** ** All of them *)

Lemma wrap_waits z : (exists k, int64_wrap z = z + k * 2 ^ 64)%Z /\ (- 2 ^ 63 <= int64_wrap z < 2 ^ 63)%Z.
Proof.
  unfold int64_wrap. pose proof (Z.mod_pos_bound z (2 ^ 64) ltac:(lia)). pose proof (Z.div_mod z (2 ^ 64) ltac:(lia)).
  destruct (z mod 2 ^ 64 <? 2 ^ 63)%Z eqn:E; (split; [|lia]); [exists (- (z / 2 ^ 64))%Z|exists (- (z / 2 ^ 64) - 1)%Z]; lia.
Qed.

Lemma duration_waits d : waits d (duration_ms d).
Proof.
  unfold waits, duration_ms. destruct (wrap_waits (Z.of_N d)) as [[a Ha] _].
  destruct (wrap_waits (int64_wrap (Z.of_N d) * 1000000)) as [[b Hb] Hr]. split; [|exact Hr].
  exists (a * 1000000 + b)%Z. rewrite Hb, Ha. ring.
Qed.


Inductive walk (m : machine) (st : settings) : Z -> list combination -> list io_event -> ended Z -> Prop :=
| w_none k : walk m st k [] [] (Finished k)
| w_works k x xs l p : attempted m st x l true -> (forall y, In y p -> exists s, y = EPrint s) -> printed p = works_text x ->
    walk m st k (x :: xs) (l ++ p) (Exited 0)
| w_fails k x xs l s ns l' e : attempted m st x l false -> walk m st (k + 1)%Z xs l' e ->
    waits (st_delay st) ns ->
    s = bs "Attempt " ++ fmt_d (k + 1)%Z ++ bs " failed (" ++ cb_app x ++ bs " " ++ cb_appver x ++ bs " " ++ fst (cb_version x) ++
         (if cb_noindent x then bs " noindent" else []) ++ bs "), trying again after " ++ fmt_d (Z.of_N (st_delay st)) ++ bs "ms..." ++ [chr 10] ->
    walk m st k (x :: xs) (l ++ EPrint s :: ESleep ns :: l') e
| w_random k x xs r err : random_uid r = None ->
    walk m st k (x :: xs) [ERand r; EPrint (bs "Error creating uid for transaction: " ++ m_error m err ++ [chr 10])] (Exited 1).

Lemma walk_app m st xs ys : forall k l1 k' l2 e, walk m st k xs l1 (Finished k') -> walk m st k' ys l2 e -> walk m st k (xs ++ ys) (l1 ++ l2) e.
Proof.
  intros k l1 k' l2 e H. remember (Finished k') as e1 eqn:E. revert E.
  induction H as [k|k x xs l p H Hn Hp|k x xs l s ns l' e0 H Hw IH Hns Hs|k x xs r s H]; intros E H2; try discriminate.
  - injection E as ->. exact H2.
  - cbn [app]. rewrite <- app_assoc. cbn [app]. eapply w_fails; eauto.
Qed.

Lemma walk_stop m st xs ys : forall k l e, walk m st k xs l e -> (forall k', e <> Finished k') -> walk m st k (xs ++ ys) l e.
Proof.
  intros k l e H. induction H as [k|k x xs l p H Hn Hp|k x xs l s ns l' e0 H Hw IH Hns Hs|k x xs r s H]; intros E; cbn [app].
  - destruct (E k eq_refl).
  - apply w_works; auto.
  - eapply w_fails; eauto.
  - apply w_random; auto.
Qed.

Lemma walk_no_crash m st k xs l e : walk m st k xs l e -> e <> Crashed.
Proof. intros H. induction H; congruence. Qed.

Lemma each_walk {A} m st (g : A -> list combination) (f : Z -> A -> io Z) : forall xs k,
  (forall a k l e, In a xs -> io_runs (f k a) l e -> walk m st k (g a) l e) ->
  forall l e, io_runs (each_counting xs k f) l e -> walk m st k (flat_map g xs) l e.
Proof.
  induction xs as [|a xs IH]; intros k Hf l e H; cbn [each_counting flat_map] in *.
  - apply io_return_inv in H as [-> ->]. constructor.
  - apply io_runs_bind in H as [(k' & l1 & l2 & H1 & H & ->)|[(c & -> & H)|[-> H]]]; apply Hf in H || apply Hf in H1; try (left; reflexivity).
    + eapply walk_app; [exact H1|]. apply IH; [|exact H]. intros a' k0 l e' Ha. apply Hf. right. exact Ha.
    + apply walk_stop; [exact H|discriminate].
    + destruct (walk_no_crash _ _ _ _ _ _ H eq_refl).
Qed.

Lemma attempt_walk m st x k l e : fits x -> enum_new enum_ofxVersion (fst (cb_version x)) = (snd (cb_version x), true) ->
  io_runs (attempt m st k (cb_app x) (cb_appver x) (fst (cb_version x)) (cb_noindent x)) l e -> walk m st k [x] l e.
Proof.
  intros Hf Ev H. unfold attempt in H.
  apply io_runs_bind in H as [(ok & l1 & l2 & H1 & H & ->)|[(c & -> & H)|[-> H]]]; apply (try_profile_runs m st x) in H || apply (try_profile_runs m st x) in H1; try exact Ev; try exact Hf.
  - destruct H1 as [(ok' & E & H1)|(? & ? & _ & E & _)]; [|discriminate]. injection E as <-. destruct ok.
    + unfold println in H. cbn [bind_io] in H. repeat (apply io_print_inv in H as (? & -> & H)). apply io_exit_inv in H as [-> ->].
      apply w_works; [exact H1|cbn [In]; intros y Hy; repeat destruct Hy as [<-|Hy]; [..|contradiction]; eexists; reflexivity|]. unfold printed, works_text. cbn [flat_map]. unfold show_bool.
      rewrite app_nil_r, <- !app_assoc. reflexivity.
    + unfold println in H. cbn [bind_io] in H. apply io_print_inv in H as (? & -> & H). apply io_sleep_inv in H as (? & -> & H).
      apply io_return_inv in H as [-> ->]. eapply w_fails; [exact H1|constructor|apply duration_waits|].
      rewrite <- !app_assoc. reflexivity.
  - destruct H as [(ok' & E & H1)|(r & s & Hr & E & ->)]; [discriminate|]. injection E as ->. constructor. exact Hr.
  - destruct H as [(ok' & E & H1)|(r & s & Hr & E & ->)]; discriminate.
Qed.

Lemma versions_known p : In p detect_versions -> enum_new enum_ofxVersion (fst p) = (snd p, true).
Proof. intros H. cbn [In detect_versions] in H. repeat destruct H as [<-|H]; try reflexivity. contradiction. Qed.

Lemma apps_fit id ver : In id app_ids -> In ver (versions_of id app_versions) -> len_between 1 5 id /\ len_between 1 4 ver.
Proof.
  assert (H : forallb (fun id => forallb (fun ver => Nat.leb 1 (length id) && Nat.leb (length id) 5 && Nat.leb 1 (length ver) && Nat.leb (length ver) 4)
    (versions_of id app_versions)) app_ids = true) by (vm_compute; reflexivity).
  rewrite forallb_forall in H. intros H1 H2. specialize (H id H1). rewrite forallb_forall in H. specialize (H ver H2). unfold len_between. lia.
Qed.

Definition walked : list combination :=
  flat_map (fun id => flat_map (fun v => flat_map (fun o => flat_map (fun n => [mkCombination id v o n]) [false; true])
    detect_versions) (versions_of id app_versions)) app_ids.

Lemma walked_all : walked = combinations.
Proof. vm_compute. reflexivity. Qed.

Lemma each_map {A B} m st (h : A -> B) (g : A -> list combination) (f : Z -> B -> io Z) xs k :
  (forall a k l e, In a xs -> io_runs (f k (h a)) l e -> walk m st k (g a) l e) ->
  forall l e, io_runs (each_counting (map h xs) k f) l e -> walk m st k (flat_map g xs) l e.
Proof.
  revert k. induction xs as [|a xs IH]; intros k Hf l e H; cbn [map each_counting flat_map] in *.
  - apply io_return_inv in H as [-> ->]. constructor.
  - apply io_runs_bind in H as [(k' & l1 & l2 & H1 & H & ->)|[(c & -> & H)|[-> H]]]; apply Hf in H || apply Hf in H1; try (left; reflexivity).
    + eapply walk_app; [exact H1|]. apply IH; [|exact H]. intros a' k0 l e' Ha. apply Hf. right. exact Ha.
    + apply walk_stop; [exact H|discriminate].
    + destruct (walk_no_crash _ _ _ _ _ _ H eq_refl).
Qed.

Lemma walk_detection m st k xs l e : walk m st k xs l e ->
  detection m st k xs l (match e with Finished _ => Finished tt | Exited c => Exited c | Crashed => Crashed end).
Proof. intros H. induction H; econstructor; eauto. Qed.

Lemma detect_runs m st l e : io_runs (detect_settings m st) l e -> detection m st 0 combinations l e.
Proof.
  intros H. unfold detect_settings in H. rewrite <- walked_all.
  assert (Hw : forall l e, io_runs (each_counting app_ids 0 (fun n id =>
    each_counting (versions_of id app_versions) n (fun n ver =>
      each_counting try_versions n (fun n version =>
        each_counting [false; true] n (fun n noindent => attempt m st n id ver version noindent))))) l e -> walk m st 0 walked l e).
  { clear. intros l e. unfold walked. apply each_walk. intros id k1 l1 e1 Hid. apply each_walk. intros ver k2 l2 e2 Hver.
    change try_versions with (map fst detect_versions). apply each_map. intros o k3 l3 e3 Ho. apply each_walk. intros n k4 l4 e4 _ H.
    exact (attempt_walk m st (mkCombination id ver o n) k4 l4 e4 (apps_fit id ver Hid Hver) (versions_known o Ho) H). }
  apply io_runs_bind in H as [(k & l1 & l2 & H1 & H & ->)|[(c & -> & H)|[-> H]]].
  - apply io_return_inv in H as [-> ->]. rewrite app_nil_r. exact (walk_detection _ _ _ _ _ _ (Hw _ _ H1)).
  - exact (walk_detection _ _ _ _ _ _ (Hw _ _ H)).
  - exact (walk_detection _ _ _ _ _ _ (Hw _ _ H)).
Qed.

(** The settings are those of the flags. *)
Lemma main_detects m args asg l e : flag_args args asg -> io_runs (main m (bs "detect-settings" :: args)) l e ->
  (network l = [] /\ exists code, e = Exited code /\ (code = 0%Z -> helped asg)) \/
  exists l1 l2 st e', credentials (bs "detect-settings") asg l1 (st_username st) (st_password st) /\
    st_serverURL st = value_of (bs "url") [] asg /\ st_org st = value_of (bs "org") [] asg /\ st_fid st = value_of (bs "fid") [] asg /\
    st_clientUID st = value_of (bs "clientuid") [] asg /\ (forall d, delay_of asg d <-> d = st_delay st) /\
    l = l1 ++ l2 /\ detection m st 0 combinations l2 e' /\ (e = e' \/ e' = Finished tt /\ e = Exited 0).
Proof.
  intros Ha H.
  assert (Hc : exists c, find_command (bs "detect-settings") commands = Some c /\ In c commands /\ cmd_check c = check_server_flags /\ cmd_do c = detect_settings).
  { eexists. split; [reflexivity|]. split; [cbn [In commands]; tauto|]. split; reflexivity. }
  destruct Hc as (c & Hf & Hin & Eck & Edo).
  destruct (main_runs _ _ _ _ _ _ Hf H) as [(Hl & code & -> & Hcode)|(st & st' & l1 & l2 & e' & Hp & Hck & Hl1 & Hd & -> & ->)].
  { left. split; [apply local_network, Hl|]. exists code. split; [reflexivity|]. intros ->. destruct Hcode as [X|X]; [contradiction|].
    unfold parse_flags in X. destruct (parse_flags_exit _ _ _ (command_tables _ Hin) (command_tables_in _ Hin) Ha _ _ X) as (n & Hn1 & Hn2). exists n. auto. }
  right. assert (Est : st = settings_after asg defaults).
  { unfold parse_flags in Hp. destruct (parse_flags_after (cmd_flags c) args asg (command_tables _ Hin) (command_tables_in _ Hin) Ha (S (length args)) defaults) as [[x E]|E]; [lia| |]; rewrite E in Hp; [discriminate|congruence]. }
  rewrite Eck in Hck. rewrite Edo in Hd. apply check_server_runs in Hck. apply (checked_credentials (bs "detect-settings") asg _ _ _ Est) in Hck as (Hcr & Hu & Est').
  apply detect_runs in Hd. exists l1, l2, st', e'. split; [exact Hcr|].
  assert (E : st_serverURL st' = st_serverURL st /\ st_org st' = st_org st /\ st_fid st' = st_fid st /\ st_clientUID st' = st_clientUID st /\ st_delay st' = st_delay st)
    by (rewrite Est'; auto).
  destruct E as (-> & -> & -> & -> & ->). pose proof (parsed_delay c args asg st Hin Ha Hp) as Hdelay. rewrite Est. split; [reflexivity|]. split; [reflexivity|]. split; [reflexivity|]. split; [reflexivity|].
  split; [exact Hdelay|]. split; [reflexivity|]. split; [exact Hd|]. destruct e' as [[]| |]; [right|left|left]; auto.
Qed.

(** ** The combinations *)

Definition combination_eqb (a b : combination) : bool :=
  str_eqb (cb_app a) (cb_app b) && str_eqb (cb_appver a) (cb_appver b) && str_eqb (fst (cb_version a)) (fst (cb_version b)) &&
  Bool.eqb (cb_noindent a) (cb_noindent b).

Fixpoint distinct_combinations (l : list combination) : bool :=
  match l with [] => true | x :: l => negb (existsb (combination_eqb x) l) && distinct_combinations l end.

Lemma combinations_nodup : NoDup combinations.
Proof.
  assert (H : forall l, distinct_combinations l = true -> NoDup l).
  { induction l as [|x l IH]; cbn [distinct_combinations]; intros H; constructor; apply andb_true_iff in H as [H1 H2]; auto.
    intros Hi. apply negb_true_iff in H1. assert (existsb (combination_eqb x) l = true); [|congruence].
    apply existsb_exists. exists x. split; [exact Hi|]. unfold combination_eqb. rewrite !str_eqb_refl, Bool.eqb_reflx. reflexivity. }
  apply H. vm_compute. reflexivity.
Qed.

Lemma combinations_all a vs v o n : In (a, vs) detect_apps -> In v vs -> In o detect_versions -> In (mkCombination a v o n) combinations.
Proof.
  intros Ha Hv Ho. unfold combinations. apply in_flat_map. exists (a, vs). split; [exact Ha|]. apply in_flat_map. exists v. split; [exact Hv|].
  apply in_flat_map. exists o. split; [exact Ho|]. apply (in_map (fun n => mkCombination a v o n)). destruct n; cbn; auto.
Qed.

(** ** Crashes *)

Lemma detection_no_crash m st k xs l e : detection m st k xs l e -> e <> Crashed.
Proof. intros H. induction H; congruence. Qed.

Lemma finish_no_crash m what st c q l e : io_runs (finish_download m what st c q) l e -> e <> Crashed.
Proof.
  intros H. destruct (st_dryrun st) eqn:Hd.
  - unfold finish_download in H. rewrite Hd in H. apply print_request_runs in H as [-> _]. discriminate.
  - apply (finish_runs _ _ _ _ _ _ _ Hd) in H as (t & tr & l3 & -> & _ & _ & He). destruct e; try discriminate. inversion He.
Qed.

Lemma downloads_no_crash c m st l e : In c commands -> In (cmd_name c) downloads -> io_runs (cmd_do c m st) l e -> e <> Crashed.
Proof.
  intros Hc Hn H. assert (G : (e = Exited 1 /\ network l = []) \/ e <> Crashed); [|destruct G as [[-> _]|G]; [discriminate|exact G]].
  cbn [In commands] in Hc. repeat destruct Hc as [<-|Hc]; try contradiction; cbn [cmd_name cmd_do] in *;
    try (exfalso; unfold downloads in Hn; cbn [In] in Hn; repeat destruct Hn as [Hn|Hn]; [..|contradiction]; discriminate Hn).
  - unfold download_profile in H. prelude H. right. eapply finish_no_crash, H.
  - unfold download_bank in H. prelude H. right. eapply finish_no_crash, H.
  - unfold download_cc in H. prelude H. right. eapply finish_no_crash, H.
  - unfold download_inv in H. prelude H. right. eapply finish_no_crash, H.
Qed.

Lemma query_prints name k r l e : In (name, k) query_shows -> io_runs (k r) l e -> (e = Crashed <-> unprintable name r).
Proof.
  intros Hk H. unfold query_shows in Hk. cbn [combine queries In] in Hk. repeat destruct Hk as [Hk|Hk]; [..|contradiction]; injection Hk as <- <-.
  - apply print_accounts_runs in H as (_ & -> & _). split; [discriminate|]. intros Hu. inversion Hu.
  - apply print_bank_runs in H as [_ H]. split.
    + intros ->. destruct (sl_bank (rs_slots r)) as [|x ms] eqn:E; [destruct H; discriminate|]. destruct x; try (destruct H; discriminate).
      destruct (StatementResponse_BankTranList r0) eqn:E2; [destruct H; discriminate|]. eapply up_bank; eauto.
    + intros Hu. inversion Hu as [? s ms E1 E2| | | |]; subst. rewrite E1, E2 in H. exact H.
  - apply print_cc_runs in H as [_ H]. split.
    + intros ->. destruct (sl_creditcard (rs_slots r)) as [|x ms] eqn:E; [destruct H; discriminate|]. destruct x; try (destruct H; discriminate).
      destruct (CCStatementResponse_BankTranList r0) eqn:E2; [|eapply up_cc_list; eauto].
      destruct H as [(_ & _ & H)|(_ & t' & H1 & H2 & H3)]; [discriminate|]. eapply up_cc_name; eauto.
    + intros Hu. inversion Hu as [|? s ms E1 E2|? s ms ts t E1 E2 E3 E4 E5| |]; subst; rewrite E1, E2 in H; [exact H|].
      destruct H as [(Hf & _)|[H _]]; [|exact H]. rewrite Forall_forall in Hf. destruct (Hf t E3) as (name & [[N _]|(_ & p & N & _)]); congruence.
  - apply print_inv_runs in H as [_ H]. split.
    + intros ->. destruct (sl_invstmt (rs_slots r)) as [|x ms] eqn:E; [destruct H; discriminate|]. destruct x; try (destruct H; discriminate).
      destruct (InvStatementResponse_InvBal r0) eqn:E2; [|eapply up_inv_balance; eauto].
      destruct (InvStatementResponse_InvTranList r0) eqn:E3; [destruct H; discriminate|]. eapply up_inv_list; eauto.
    + intros Hu. inversion Hu as [| | |? s ms E1 E2|? s ms E1 E2]; subst; rewrite E1, E2 in H; [exact H|].
      destruct (InvStatementResponse_InvBal s); exact H.
Qed.

Lemma main_crash m args l : io_runs (main m args) l Crashed ->
  exists name rest r, args = name :: rest /\ accepted (m_env m) (network l) r /\ unprintable name r.
Proof.
  intros H. destruct args as [|name rest].
  { exfalso. unfold main, usage, println, print in H. cbn [bind_io each commands cmd_name cmd_description] in H.
    repeat (apply io_print_inv in H as (? & _ & H)). apply io_exit_inv in H as [_ H]. discriminate. }
  destruct (find_command name commands) as [c|] eqn:Ec.
  2:{ exfalso. unfold main in H. rewrite Ec in H. destruct (existsb _ _); unfold usage, println, print in H;
      cbn [bind_io each commands cmd_name cmd_description] in H; repeat (apply io_print_inv in H as (? & _ & H));
      try (apply io_exit_inv in H as [_ H]; discriminate); apply io_return_inv in H as [_ H]; discriminate. }
  pose proof (find_command_in _ _ _ Ec) as [Hin Hname].
  assert (Hk : In (cmd_name c) downloads \/ cmd_do c = detect_settings \/ exists k, In (cmd_name c, k) query_shows).
  { cbn [In commands] in Hin. repeat destruct Hin as [<-|Hin]; try contradiction; cbn [cmd_name cmd_do]; unfold downloads, query_shows, queries; cbn [combine In];
      eauto 12. }
  destruct Hk as [Hk|[Hk|[k Hk]]].
  - exfalso. destruct (main_runs _ _ _ _ _ _ Ec H) as [(_ & code & X & _)|(st & st' & l1 & l2 & e' & _ & _ & _ & Hd & _ & X)]; [discriminate|].
    apply downloads_no_crash in Hd; auto. destruct e'; try discriminate. contradiction.
  - exfalso. destruct (main_runs _ _ _ _ _ _ Ec H) as [(_ & code & X & _)|(st & st' & l1 & l2 & e' & _ & _ & _ & Hd & _ & X)]; [discriminate|].
    rewrite Hk in Hd. apply detect_runs, detection_no_crash in Hd. destruct e'; try discriminate. contradiction.
  - rewrite Hname in Hk. destruct (query_crash _ _ _ _ _ Hk H) as (r & l2 & Ha & Hr). exists name, rest, r. split; [reflexivity|]. split; [exact Ha|].
    apply (query_prints _ _ _ _ _ Hk Hr). reflexivity.
Qed.

Lemma unprintable_crash m name rest l e r : io_runs (main m (name :: rest)) l e -> accepted (m_env m) (network l) r -> unprintable name r -> e = Crashed.
Proof.
  intros H Ha Hu. assert (Hk : exists k, In (name, k) query_shows).
  { unfold query_shows, queries. destruct Hu; cbn [combine In]; eauto 8. }
  destruct Hk as [k Hk]. destruct (query_accepted _ _ _ _ _ _ _ Hk H Ha) as (l1 & l2 & e' & -> & _ & _ & _ & Hr & ->).
  apply (query_prints _ _ _ _ _ Hk Hr) in Hu. rewrite Hu. reflexivity.
Qed.
