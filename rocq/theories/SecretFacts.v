(** Runs that differ in the password only. *)
From Coq Require Import QArith Lia.
From Verif Require Import GoStr SpecStr GoNum GoTime Types Enums EnumTables Records Common Messages Codec Schema Document SpecDocument Xml Wire Marshal
  Url Clients SpecClients Cli SpecCli CliFacts CliRuns SpecContent ContentFacts SpecSecret.
Close Scope Q_scope.
Close Scope string_scope.
Open Scope list_scope.

(** ** Marshal *)

Definition sign (p : str) (s : SignonRequest) : SignonRequest :=
  mkSignonRequest (SignonRequest_DtClient s) (SignonRequest_UserID s) p (SignonRequest_UserKey s)
       (SignonRequest_GenUserKey s) (SignonRequest_Language s) (SignonRequest_Org s) (SignonRequest_Fid s)
       (SignonRequest_AppID s) (SignonRequest_AppVer s) (SignonRequest_ClientUID s).

Lemma with_sign p q : with_password p q = mkRequest (rq_url q) (rq_version q) (sign p (rq_signon q)) (rq_slots q) (rq_indent q) (rq_cr q).
Proof. reflexivity. Qed.
Lemma with_twice p p' q : with_password p (with_password p' q) = with_password p q.
Proof. reflexivity. Qed.

Lemma usable_empty p : usable p -> empty p = false.
Proof. unfold usable. destruct p; cbn; [lia|reflexivity]. Qed.
Lemma usable_short p : usable p -> (32 <? length p)%nat = false.
Proof. unfold usable. intros H. apply Nat.ltb_ge. lia. Qed.

Lemma valid_sign p p' s : usable p -> usable p' ->
  exists s1 v, signon_request_valid (sign p s) = (sign p s1, v) /\ signon_request_valid (sign p' s) = (sign p' s1, v).
Proof.
  intros H H'. destruct s as [a b c d f g h i j k l]. unfold signon_request_valid, sign.
  cbn [SignonRequest_DtClient SignonRequest_UserID SignonRequest_UserPass SignonRequest_UserKey SignonRequest_GenUserKey
       SignonRequest_Language SignonRequest_Org SignonRequest_Fid SignonRequest_AppID SignonRequest_AppVer SignonRequest_ClientUID].
  cbv zeta. rewrite (usable_empty _ H), (usable_empty _ H'), (usable_short _ H), (usable_short _ H').
  destruct (_ || _).
  { exists (mkSignonRequest a b p d f g h i j k l). eexists. split; reflexivity. }
  destruct (Bool.eqb _ _).
  { exists (mkSignonRequest a b p d f g h i j k l). eexists. split; reflexivity. }
  destruct (64 <? _)%nat.
  { exists (mkSignonRequest a b p d f g h i j k l). eexists. split; reflexivity. }
  destruct (_ && _).
  { exists (mkSignonRequest a b p d f g h i j k l). eexists. split; reflexivity. }
  destruct (empty g);
  cbn [SignonRequest_DtClient SignonRequest_UserID SignonRequest_UserPass SignonRequest_UserKey SignonRequest_GenUserKey
       SignonRequest_Language SignonRequest_Org SignonRequest_Fid SignonRequest_AppID SignonRequest_AppVer SignonRequest_ClientUID].
  - exists (mkSignonRequest a b p d f (bs "ENG") h i j k l).
    destruct (_ || _); [eexists; split; reflexivity|]. destruct (_ || _); eexists; split; reflexivity.
  - exists (mkSignonRequest a b p d f g h i j k l).
    destruct (_ || _); [eexists; split; reflexivity|]. destruct (_ || _); eexists; split; reflexivity.
Qed.


Lemma valid_sign_all s : exists s1 v, forall p, usable p -> signon_request_valid (sign p s) = (sign p s1, v).
Proof.
  assert (H0 : usable (bs "0")) by (unfold usable; cbn; lia).
  destruct (valid_sign (bs "0") (bs "0") s H0 H0) as (s1 & v & E & _). exists s1, v. intros p H.
  destruct (valid_sign (bs "0") p s H0 H) as (s2 & v2 & E2 & ->). rewrite E in E2.
  pose proof (f_equal fst E2) as E3. pose proof (f_equal snd E2) as E4. cbn [fst snd] in E3, E4. rewrite E4.
  apply (f_equal (sign p)) in E3. unfold sign in *. cbn in E3. rewrite E3. reflexivity.
Qed.

(** A text with a place for the password. *)
Definition slot (f : str -> str) : Prop := exists pre suf, forall p, usable p -> f p = pre ++ escape p ++ suf.

(** An element with the place in one of its children. *)
Lemma slot_elem st first d nm a b (n : str -> node) : (forall x, is_elem (n x) = true) ->
  slot (fun x => Xml.print st false (S d) (n x)) ->
  slot (fun x => Xml.print st first d (Elem nm (a ++ n x :: b))).
Proof.
  intros He (pre & suf & E).
  exists (line_start st first d ++ bs "<" ++ nm ++ bs ">" ++ concat (map (Xml.print st false (S d)) a) ++ pre),
    (suf ++ concat (map (Xml.print st false (S d)) b) ++
     (if member nm (st_unclosed st) then [] else line_start st false d ++ bs "</" ++ nm ++ bs ">")).
  intros p Hp. cbn [Xml.print]. rewrite map_app, concat_app. cbn [map concat]. rewrite existsb_app. cbn [existsb]. rewrite He, orb_true_r, (E p Hp).
  rewrite <- !app_assoc. reflexivity.
Qed.

Lemma slot_text st first d nm : slot (fun x => Xml.print st first d (Elem nm [Text x])).
Proof.
  exists (line_start st first d ++ bs "<" ++ nm ++ bs ">"), (if member nm (st_unclosed st) then [] else bs "</" ++ nm ++ bs ">").
  intros p _. cbn [Xml.print map concat existsb is_elem orb]. rewrite app_nil_r. rewrite <- !app_assoc. reflexivity.
Qed.

Lemma signon_slot st d s : exists n : str -> node,
  (forall p, usable p -> SignonRequest_element (sign p s) = [n p]) /\ (forall x, is_elem (n x) = true) /\
  slot (fun x => Xml.print st false d (n x)).
Proof.
  destruct s as [a b c dd f g h i j k l].
  exists (fun x => Elem (bs "SONRQ") ((date "DTCLIENT" a ++ text "USERID" b) ++ Elem (bs "USERPASS") [Text x] ::
    (opt_text "USERKEY" dd ++ opt_flag "GENUSERKEY" f ++ text "LANGUAGE" g ++ inside "FI" (text "ORG" h ++ text "FID" i) ++
     text "APPID" j ++ text "APPVER" k ++ opt_text "CLIENTUID" l))).
  assert (X : forall x, usable x -> opt_text "USERPASS" x = [Elem (bs "USERPASS") [Text x]]).
  { intros x Hx. unfold usable in Hx. destruct x; cbn [length] in Hx; [lia|reflexivity]. }
  split; [|split; [reflexivity|]].
  - intros p Hp. unfold SignonRequest_element, sign. cbn [SignonRequest_DtClient SignonRequest_UserID SignonRequest_UserPass SignonRequest_UserKey SignonRequest_GenUserKey
       SignonRequest_Language SignonRequest_Org SignonRequest_Fid SignonRequest_AppID SignonRequest_AppVer SignonRequest_ClientUID].
    rewrite (X p Hp). rewrite <- !app_assoc. reflexivity.
  - apply (slot_elem st false d (bs "SONRQ") _ _ (fun x => Elem (bs "USERPASS") [Text x])); [reflexivity|]. apply slot_text.
Qed.

Lemma marshal_slot q : (forall p, usable p -> request_marshal (with_password p q) = None) \/
  exists pre suf q1, forall p, usable p -> request_marshal (with_password p q) = Some (pre ++ escape p ++ suf, with_password p q1).
Proof.
  destruct (valid_sign_all (rq_signon q)) as (s1 & v & Hv).
  set (st := request_style q).
  assert (Hst : forall p, request_style (with_password p q) = st) by reflexivity.
  destruct v as [v|].
  { left. intros p Hp. unfold request_marshal, request_tree. rewrite with_sign. cbn [rq_signon rq_slots rq_version rq_url rq_indent rq_cr].
    rewrite (Hv p Hp). reflexivity. }
  destruct (encode_sets (set_table (rq_slots q) Rq) (rq_version q)) as [r|] eqn:Er.
  - right. destruct (signon_slot st 2 s1) as (n & Hs & He & Hn).
    assert (S0 : slot (fun x => Xml.print st true 0 (Elem (bs "OFX") (([] : list node) ++ Elem (msgtype_string (MSignon, Rq)) (([] : list node) ++ n x :: []) :: fst r)))).
    { apply (slot_elem st true 0 (bs "OFX") [] (fst r) (fun x => Elem (msgtype_string (MSignon, Rq)) ([] ++ n x :: []))); [reflexivity|].
      apply (slot_elem st false 1 (msgtype_string (MSignon, Rq)) [] [] n); assumption. }
    destruct S0 as (pre & suf & E). cbn [app] in E.
    exists (header_or_nothing (rq_version q) (rq_cr q) ++ pre), suf, (mkRequest (rq_url q) (rq_version q) s1 (slots_of_list (snd r)) (rq_indent q) (rq_cr q)).
    intros p Hp. unfold request_marshal, request_tree. rewrite Hst. rewrite with_sign. cbn [rq_signon rq_slots rq_version rq_url rq_indent rq_cr].
    rewrite (Hv p Hp). unfold encode_as. rewrite SignonRequest_written, (Hs p Hp), Er. cbn [bind fst snd]. rewrite (E p Hp), <- app_assoc. reflexivity.
  - left. intros p Hp. unfold request_marshal, request_tree. rewrite with_sign. cbn [rq_signon rq_slots rq_version rq_url rq_indent rq_cr].
    rewrite (Hv p Hp). unfold encode_as. rewrite SignonRequest_written, Er. reflexivity.
Qed.

Lemma marshal_alike p p' q : usable p -> usable p' ->
  match request_marshal (with_password p q), request_marshal (with_password p' q) with
  | Some (b, q1), Some (b', q1') =>
      (exists pre suf, b = pre ++ escape p ++ suf /\ b' = pre ++ escape p' ++ suf) /\ q1 = with_password p q1 /\ q1' = with_password p' q1
  | None, None => True
  | _, _ => False
  end.
Proof.
  intros H H'. destruct (marshal_slot q) as [X|(pre & suf & q1 & X)]; rewrite (X p H), (X p' H'); [exact I|].
  split; [exists pre, suf; split; reflexivity|]. split; reflexivity.
Qed.

(** ** Network programs *)

Inductive net_alike (p p' : str) {A} (R : A -> A -> Prop) : net A -> net A -> Prop :=
| na_done a a' : R a a' -> net_alike p p' R (Done a) (Done a')
| na_http r r' k k' : same_head r r' -> text_alike p p' (hr_body r) (hr_body r') ->
    (forall x, net_alike p p' R (k x) (k' x)) -> net_alike p p' R (Http r k) (Http r' k')
| na_dial h k k' : (forall x, net_alike p p' R (k x) (k' x)) -> net_alike p p' R (Dial h k) (Dial h k')
| na_write b b' k k' : text_alike p p' b b' \/ length_alike b b' ->
    (forall x, net_alike p p' R (k x) (k' x)) -> net_alike p p' R (Write b k) (Write b' k')
| na_read k k' : (forall x, net_alike p p' R (k x) (k' x)) -> net_alike p p' R (Read k) (Read k').

Lemma net_alike_runs p p' A (R : A -> A -> Prop) P P' : net_alike p p' R P P' -> forall tr x, runs P tr x ->
  exists tr' x', runs P' tr' x' /\ Forall2 (sent_alike p p') tr tr' /\ R x x'.
Proof.
  intros H. induction H as [a a' Ha|r r' k k' Hh Hb _ IH|h k k' _ IH|b b' k k' Hb _ IH|k k' _ IH]; intros tr x Hr; inversion Hr; subst.
  - exists [], a'. split; [constructor|]. split; [constructor|exact Ha].
  - match goal with X : runs _ _ _ |- _ => destruct (IH _ _ _ X) as (tr' & x' & G1 & G2 & G3) end.
    eexists (EHttp r' _ :: tr'), x'. split; [constructor; exact G1|]. split; [constructor; [constructor; assumption|exact G2]|exact G3].
  - match goal with X : runs _ _ _ |- _ => destruct (IH _ _ _ X) as (tr' & x' & G1 & G2 & G3) end.
    eexists (EDial h _ :: tr'), x'. split; [constructor; exact G1|]. split; [constructor; [constructor; assumption|exact G2]|exact G3].
  - match goal with X : runs _ _ _ |- _ => destruct (IH _ _ _ X) as (tr' & x' & G1 & G2 & G3) end.
    eexists (EWrite b' _ :: tr'), x'. split; [constructor; exact G1|]. split; [constructor; [constructor; assumption|exact G2]|exact G3].
  - match goal with X : runs _ _ _ |- _ => destruct (IH _ _ _ X) as (tr' & x' & G1 & G2 & G3) end.
    eexists (ERead _ :: tr'), x'. split; [constructor; exact G1|]. split; [constructor; [constructor; assumption|exact G2]|exact G3].
Qed.

Lemma net_alike_then p p' A B (R : A -> A -> Prop) (S : B -> B -> Prop) P P' f f' :
  net_alike p p' R P P' -> (forall x x', R x x' -> net_alike p p' S (f x) (f' x')) -> net_alike p p' S (andthen P f) (andthen P' f').
Proof. intros H Hf. induction H; cbn [andthen]; [apply Hf; assumption|..]; constructor; assumption. Qed.

Lemma text_alike_refl p p' b : text_alike p p' b b.
Proof. left. reflexivity. Qed.

Lemma do_http_alike p p' w hc rewind : carries_alike w ->
  (forall r r' l l', same_head r r' -> Forall2 same_head l l' -> hc_check hc r l = hc_check hc r' l') ->
  forall fuel first first' sent sent' r r', same_head first first' -> text_alike p p' (hr_body first) (hr_body first') ->
  same_head r r' -> text_alike p p' (hr_body r) (hr_body r') -> Forall2 same_head sent sent' ->
  net_alike p p' eq (do_http w hc rewind fuel first sent r) (do_http w hc rewind fuel first' sent' r').
Proof.
  intros Hw Hc. induction fuel as [|fuel IH]; intros first first' sent sent' r r' Hf Hfb Hr Hrb Hs; cbn [do_http]; [constructor; reflexivity|].
  constructor; [exact Hr|exact Hrb|]. intros [rp|]; [|constructor; reflexivity].
  pose proof Hr as (Hm & Hu & _). rewrite <- Hm, <- Hu.
  destruct (redirect (hr_method r) rewind rp) as [[method again]|]; [|constructor; reflexivity].
  destruct (rp_location rp) as [|c loc]; [constructor; reflexivity|].
  destruct (w_resolve w (hr_url r) (c :: loc)) as [target|]; [|constructor; reflexivity]. cbv zeta.
  rewrite <- (Hw _ _ target Hf).
  assert (Hn : same_head (mkHttpRequest method target (fst (w_carry w first target)) (snd (w_carry w first target)) (if again then hr_body first else []))
                         (mkHttpRequest method target (fst (w_carry w first target)) (snd (w_carry w first target)) (if again then hr_body first' else []))).
  { repeat split; reflexivity. }
  rewrite <- (Hc _ _ _ _ Hn (Forall2_cons _ _ Hr Hs)).
  destruct (hc_check hc _ _) as [[]|]; try (constructor; reflexivity).
  apply IH; auto. cbn [hr_body]. destruct again; [exact Hfb|apply text_alike_refl].
Qed.

Lemma default_checks r r' l l' : same_head r r' -> Forall2 same_head l l' -> hc_check default_client r l = hc_check default_client r' l'.
Proof. reflexivity. Qed.

Lemma http_do_alike p p' w hc rewind r r' : carries_alike w ->
  (forall r r' l l', same_head r r' -> Forall2 same_head l l' -> hc_check hc r l = hc_check hc r' l') ->
  same_head r r' -> text_alike p p' (hr_body r) (hr_body r') -> net_alike p p' eq (http_do w hc rewind r) (http_do w hc rewind r').
Proof. intros Hw Hc Hr Hb. unfold http_do. apply do_http_alike; auto. Qed.

Lemma basic_alike p p' w bc u b b' rewind : carries_alike w -> checks_alike (Basic bc) -> text_alike p p' b b' ->
  net_alike p p' eq (basic_raw w bc u b rewind) (basic_raw w bc u b' rewind).
Proof.
  intros Hw Hc Hb. unfold basic_raw. destruct (negb _); [constructor; reflexivity|]. destruct (parse_url u); [|constructor; reflexivity]. cbv zeta.
  eapply net_alike_then.
  - apply http_do_alike; [exact Hw| |repeat split; reflexivity|exact Hb].
    specialize (Hc). unfold checks_alike in Hc. cbn [basic_of] in Hc. destruct (bc_HTTPClient bc) as [hc|]; [apply Hc; reflexivity|apply default_checks].
  - intros x x' <-. destruct x; constructor; reflexivity.
Qed.

Lemma vanguard_alike p p' w bc u b b' rewind : carries_alike w -> text_alike p p' b b' ->
  net_alike p p' eq (vanguard_raw w bc u b rewind) (vanguard_raw w bc u b' rewind).
Proof.
  intros Hw Hb. unfold vanguard_raw. destruct (negb _); [constructor; reflexivity|]. destruct (parse_url u); [|constructor; reflexivity].
  eapply net_alike_then.
  - apply http_do_alike; [exact Hw|apply default_checks|repeat split; reflexivity|exact Hb].
  - intros x x' <-. destruct x; constructor; reflexivity.
Qed.

Lemma cookies_alike p p' w u b b' rewind cookies : carries_alike w -> text_alike p p' b b' ->
  net_alike p p' eq (cookies_raw w u b rewind cookies) (cookies_raw w u b' rewind cookies).
Proof.
  intros Hw Hb. unfold cookies_raw. destruct (negb _); [constructor; reflexivity|]. destruct (parse_url u); [|constructor; reflexivity].
  eapply net_alike_then.
  - apply http_do_alike; [exact Hw|apply default_checks|repeat split; reflexivity|exact Hb].
  - intros x x' <-. destruct x as [rp|]; [destruct (Z.eqb (rp_code rp) 200)|]; constructor; reflexivity.
Qed.

Lemma discover_alike p p' u b b' : text_alike p p' b b' -> net_alike p p' eq (discover_raw u b) (discover_raw u b').
Proof.
  intros Hb. unfold discover_raw. destruct (negb _); [constructor; reflexivity|].
  eapply net_alike_then.
  - unfold discover_post. destruct (parse_url u) as [x|]; [|constructor; reflexivity]. cbv zeta. apply na_dial. intros ok.
    destruct (negb ok); [constructor; reflexivity|]. apply na_write.
    + right. exists (bs "POST " ++ match u_path x with [] => bs "/" | q => q end ++ bs " HTTP/1.1" ++ crlf ++ bs "Content-Type: application/x-ofx" ++ crlf ++ bs "Host: " ++ hostname x ++ crlf),
        (bs "Connection: Keep-Alive" ++ crlf ++ crlf), (Z.of_nat (length b)), (Z.of_nat (length b')).
      unfold discover_headers. cbv zeta. rewrite <- !app_assoc. split; reflexivity.
    + intros _. apply na_write; [left; exact Hb|]. intros ok'. destruct (negb ok'); [constructor; reflexivity|]. apply na_read. intros y. constructor. reflexivity.
  - intros x x' <-. destruct x as [rp|]; [destruct (Z.eqb (rp_code rp) 200)|]; constructor; reflexivity.
Qed.

Lemma raw_alike p p' w c u b b' rewind : carries_alike w -> checks_alike c -> text_alike p p' b b' ->
  net_alike p p' eq (raw_request w c u b rewind) (raw_request w c u b' rewind).
Proof.
  intros Hw Hc Hb. destruct c; cbn [raw_request]; [apply basic_alike|apply vanguard_alike|apply discover_alike]; assumption.
Qed.

Definition request_alike (p p' : str) (q q' : Request) : Prop :=
  q = q' \/ q = with_password p q /\ q' = with_password p' q.

Lemma request_alike_set p p' now c q q' : request_alike p p' q q' -> request_alike p p' (set_client_fields now c q) (set_client_fields now c q').
Proof.
  intros [->|[E ->]]; [left; reflexivity|right]. split; [|reflexivity].
  destruct q as [u v s sl i cr]. destruct s. cbn in E. injection E as ->. reflexivity.
Qed.

Lemma marshal_request_alike p p' q q' : usable p -> usable p' -> request_alike p p' q q' ->
  match request_marshal q, request_marshal q' with
  | Some (b, q1), Some (b', q1') => text_alike p p' b b' /\ request_alike p p' q1 q1' /\ rq_url q1 = rq_url q1'
  | None, None => True
  | _, _ => False
  end.
Proof.
  intros H H' [<-|[E ->]].
  - destruct (request_marshal q) as [[b q1]|]; [|exact I]. split; [left; reflexivity|]. split; [left; reflexivity|reflexivity].
  - pose proof (marshal_alike p p' q H H') as X. rewrite <- E in X.
    destruct (request_marshal q) as [[b q1]|], (request_marshal (with_password p' q)) as [[b' q1']|]; auto.
    destruct X as (Hb & E1 & E2). split; [right; exact Hb|]. split; [right; auto|]. rewrite E2. reflexivity.
Qed.

Lemma attempt_alike p p' q q' : usable p -> usable p' -> request_alike p p' q q' ->
  marshal_failure q = marshal_failure q' /\ request_alike p p' (request_after q) (request_after q').
Proof.
  intros H H' [<-|[E ->]]; [split; [|left]; reflexivity|].
  rewrite E. replace (with_password p' (with_password p q)) with (with_password p' q) by reflexivity.
  destruct (valid_sign_all (rq_signon q)) as (s1 & v & Hv).
  unfold marshal_failure, request_after, request_attempt. rewrite !with_sign. cbn [rq_signon rq_slots rq_version rq_url rq_indent rq_cr].
  rewrite (Hv p H), (Hv p' H'). destruct v as [err|]; cbn [fst snd]; (split; [reflexivity|]); right; split; reflexivity.
Qed.

Definition outcome_alike {A} (p p' : str) (x x' : A * Request) : Prop := fst x = fst x' /\ request_alike p p' (snd x) (snd x').

Lemma no_parse_alike p p' w c q q' : usable p -> usable p' -> carries_alike w -> checks_alike c -> request_alike p p' q q' ->
  net_alike p p' (outcome_alike p p') (request_no_parse w c q) (request_no_parse w c q').
Proof.
  intros H H' Hw Hc Hq. unfold request_no_parse. cbv zeta. apply (request_alike_set p p' (w_now w) c) in Hq.
  pose proof (marshal_request_alike p p' _ _ H H' Hq) as X.
  destruct (request_marshal (set_client_fields (w_now w) c q)) as [[b q1]|], (request_marshal (set_client_fields (w_now w) c q')) as [[b' q1']|];
    try contradiction;
    [|destruct (attempt_alike p p' _ _ H H' Hq) as [Ef Ha]; constructor; split; [cbn [fst]; rewrite Ef; reflexivity|exact Ha]].
  destruct X as (Hb & Hq1 & Eu). rewrite <- Eu. eapply net_alike_then; [apply raw_alike; eassumption|]. intros o o' <-.
  assert (D : net_alike p p' (outcome_alike p p') (Done (o, q1)) (Done (o, q1'))) by (constructor; split; [reflexivity|exact Hq1]).
  destruct c; [exact D| |exact D]. destruct (fst o) as [rp|]; [|exact D]. destruct (_ && _); [|exact D].
  pose proof (marshal_request_alike p p' _ _ H H' Hq1) as X.
  destruct (request_marshal q1) as [[b2 q2]|], (request_marshal q1') as [[b2' q2']|]; try contradiction;
    [|destruct (attempt_alike p p' _ _ H H' Hq1) as [Ef Ha]; constructor; split; [cbn [fst]; rewrite Ef; reflexivity|exact Ha]].
  destruct X as (Hb2 & Hq2 & Eu2). rewrite <- Eu2. eapply net_alike_then; [apply cookies_alike; eassumption|]. intros y y' <-.
  constructor. split; [reflexivity|exact Hq2].
Qed.

Lemma request_alike_net p p' w e c q q' : usable p -> usable p' -> carries_alike w -> checks_alike c -> request_alike p p' q q' ->
  net_alike p p' (outcome_alike p p') (client_request w e c q) (client_request w e c q').
Proof.
  intros H H' Hw Hc Hq. unfold client_request. eapply net_alike_then; [apply no_parse_alike; eassumption|].
  intros x x' [E Hx]. rewrite <- E. constructor. split; [reflexivity|exact Hx].
Qed.
