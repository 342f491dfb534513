(** Facts about the client model. *)
From Coq Require Import QArith Lia Bool ZifyBool ZifyNat ZifyN.
From Verif Require Import GoStr SpecStr GoStrFacts GoNum SpecNum GoNumFacts GoTime Types Enums EnumTables EnumFacts Records Common Messages
  Codec SpecCodec Schema Document SpecDocument DocumentFacts SetsFacts TreeFacts SpecXml Wire Marshal SpecWire Headers SpecHeader HeaderFacts WrittenHeaderFacts WireFacts Url Clients SpecClients.
Close Scope Q_scope.

(** ** Histories *)

Lemma runs_done_inv A (a x : A) tr : runs (Done a) tr x -> tr = [] /\ x = a.
Proof. intros H. inversion H; subst. auto. Qed.

Lemma runs_http_inv A r (k : option http_response -> net A) tr x : runs (Http r k) tr x ->
  exists a tr', tr = EHttp r a :: tr' /\ runs (k a) tr' x.
Proof. intros H. inversion H; subst. eauto. Qed.

Lemma runs_dial_inv A h (k : bool -> net A) tr x : runs (Dial h k) tr x ->
  exists a tr', tr = EDial h a :: tr' /\ runs (k a) tr' x.
Proof. intros H. inversion H; subst. eauto. Qed.

Lemma runs_write_inv A b (k : bool -> net A) tr x : runs (Write b k) tr x ->
  exists a tr', tr = EWrite b a :: tr' /\ runs (k a) tr' x.
Proof. intros H. inversion H; subst. eauto. Qed.

Lemma runs_read_inv A (k : option http_response -> net A) tr x : runs (Read k) tr x ->
  exists a tr', tr = ERead a :: tr' /\ runs (k a) tr' x.
Proof. intros H. inversion H; subst. eauto. Qed.

Lemma runs_andthen A B (p : net A) (f : A -> net B) tr x : runs (andthen p f) tr x ->
  exists tr1 a tr2, runs p tr1 a /\ runs (f a) tr2 x /\ tr = tr1 ++ tr2.
Proof.
  revert tr. induction p as [a|r k IH|h k IH|b k IH|k IH]; intros tr H; cbn [andthen] in H.
  - exists [], a, tr. split; [constructor|]. auto.
  - apply runs_http_inv in H as (a & tr' & -> & H). destruct (IH a tr' H) as (t1 & y & t2 & H1 & H2 & ->).
    exists (EHttp r a :: t1), y, t2. split; [constructor; exact H1|]. auto.
  - apply runs_dial_inv in H as (a & tr' & -> & H). destruct (IH a tr' H) as (t1 & y & t2 & H1 & H2 & ->).
    exists (EDial h a :: t1), y, t2. split; [constructor; exact H1|]. auto.
  - apply runs_write_inv in H as (a & tr' & -> & H). destruct (IH a tr' H) as (t1 & y & t2 & H1 & H2 & ->).
    exists (EWrite b a :: t1), y, t2. split; [constructor; exact H1|]. auto.
  - apply runs_read_inv in H as (a & tr' & -> & H). destruct (IH a tr' H) as (t1 & y & t2 & H1 & H2 & ->).
    exists (ERead a :: t1), y, t2. split; [constructor; exact H1|]. auto.
Qed.

Lemma runs_andthen_make A B (p : net A) (f : A -> net B) tr1 a tr2 x :
  runs p tr1 a -> runs (f a) tr2 x -> runs (andthen p f) (tr1 ++ tr2) x.
Proof. intros H1 H2. induction H1; cbn [andthen app]; auto; constructor; auto. Qed.

(** ** http.Client.Do *)

Lemma redirect_redirects m rw rp m' again : redirect m rw rp = Some (m', again) ->
  redirects rp /\ (again = true -> In (rp_code rp) [307; 308]%Z /\ m' = m /\ rw = true).
Proof.
  unfold redirect, redirects. cbn [existsb]. rewrite !orb_false_r.
  destruct (Z.eqb_spec (rp_code rp) 301); destruct (Z.eqb_spec (rp_code rp) 302); destruct (Z.eqb_spec (rp_code rp) 303);
  destruct (Z.eqb_spec (rp_code rp) 307); destruct (Z.eqb_spec (rp_code rp) 308); cbn [orb]; intros H; try discriminate H;
  try (match type of H with Some _ = _ => injection H as <- <- end; split; [cbn; auto 8 | discriminate]);
  destruct (rp_location rp); try discriminate H; destruct rw; try discriminate H; injection H as <- <-;
  (split; [cbn; auto 8 | intros _; split; [cbn; auto|auto]]).
Qed.

Lemma do_http_round w hc rw fuel first sent r tr x : runs (do_http w hc rw fuel first sent r) tr x ->
  (fuel = 0 /\ tr = [] /\ x = None) \/
  (length tr <= fuel /\ exists a, round w (hr_body first) r tr a /\ (x = a \/ x = None /\ forall rp, a = Some rp -> redirects rp)).
Proof.
  revert sent r tr x. induction fuel as [|fuel IH]; intros sent r tr x H; cbn [do_http] in H.
  - apply runs_done_inv in H. left. tauto.
  - right. apply runs_http_inv in H as (a & tr' & -> & H).
    assert (Hlast : forall y, runs (Done y) tr' x -> (y = a \/ y = None /\ forall rp, a = Some rp -> redirects rp) ->
      length (EHttp r a :: tr') <= S fuel /\
      exists a0, round w (hr_body first) r (EHttp r a :: tr') a0 /\ (x = a0 \/ x = None /\ forall rp, a0 = Some rp -> redirects rp)).
    { intros y Hy Hv. apply runs_done_inv in Hy as [-> ->]. cbn [length]. split; [lia|]. exists a. split; [constructor|exact Hv]. }
    destruct a as [rp|]; [|apply (Hlast None); auto].
    destruct (redirect (hr_method r) rw rp) as [[m again]|] eqn:Er; [|apply (Hlast (Some rp)); auto].
    apply redirect_redirects in Er as [Er1 Er2].
    assert (Hn : forall rp', Some rp = Some rp' -> redirects rp') by (intros rp' E; injection E as <-; exact Er1).
    destruct (rp_location rp) as [|c loc] eqn:El; [apply (Hlast None); auto|].
    destruct (w_resolve w (hr_url r) (c :: loc)) as [target|] eqn:Et; [|apply (Hlast None); auto].
    cbv zeta in H. set (next := mkHttpRequest m target (fst (w_carry w first target)) (snd (w_carry w first target)) (if again then hr_body first else [])) in H.
    destruct (hc_check hc next (r :: sent)) as [[|]|]; [|apply (Hlast None); auto|apply (Hlast (Some rp)); auto].
    assert (Hrd : redirected w (hr_body first) r rp next).
    { unfold redirected, next. cbn [hr_url hr_body]. rewrite El. split; [exact Er1|]. split; [exact Et|].
      destruct again; [right; split; [apply Er2; reflexivity|reflexivity]|left; reflexivity]. }
    destruct (IH _ _ _ _ H) as [(-> & -> & ->)|(Hl & a0 & Hr & Hx)].
    + cbn [length]. split; [lia|]. exists (Some rp). split; [constructor|auto].
    + cbn [length]. split; [lia|]. exists a0. split; [|exact Hx]. econstructor; eauto.
Qed.

Lemma round_ne w b r tr a : round w b r tr a -> exists x tr', tr = EHttp r x :: tr'.
Proof. intros H. inversion H; subst; eauto. Qed.

Lemma round_last_answer w b r tr a : round w b r tr a -> last_answer tr = a.
Proof.
  intros H. induction H as [r a|r rp r' tr a Hr H IH]; [reflexivity|].
  destruct (round_ne _ _ _ _ _ H) as (x & tr' & ->). exact IH.
Qed.

Lemma round_event w b r tr a l1 r' a' l2 : round w b r tr a -> tr = l1 ++ EHttp r' a' :: l2 ->
  (l1 = [] /\ r' = r) \/ exists l0 r0 rp, l1 = l0 ++ [EHttp r0 (Some rp)] /\ redirected w b r0 rp r'.
Proof.
  intros H. revert l1. induction H as [r a|r rp rn tr a Hr H IH]; intros l1 E.
  - destruct l1 as [|x l1]; [injection E as <- <- <-; auto|]. destruct l1; discriminate.
  - destruct l1 as [|x l1]; [injection E as <- <- <-; auto|]. cbn [app] in E. injection E as <- E.
    right. destruct (IH l1 E) as [[-> ->]|(l0 & r0 & rp0 & -> & Hd)].
    + exists [], r, rp. auto.
    + exists (EHttp r (Some rp) :: l0), r0, rp0. auto.
Qed.

Lemma round_body w b r tr a r' a' : round w b r tr a -> hr_body r = b -> In (EHttp r' a') tr -> hr_body r' = [] \/ hr_body r' = b.
Proof.
  intros H Hb Hi. apply in_split in Hi as (l1 & l2 & E).
  destruct (round_event _ _ _ _ _ _ _ _ _ H E) as [[_ ->]|(l0 & r0 & rp & _ & (_ & _ & [Hd|[_ Hd]]))]; auto.
Qed.

Lemma round_no_redirect w b r tr a : round w b r tr a ->
  (forall r' rp, In (EHttp r' (Some rp)) tr -> ~ redirects rp) -> length tr = 1.
Proof.
  intros H Hn. destruct H as [r a|r rp r' tr a [Hr _] H]; [reflexivity|].
  exfalso. exact (Hn r rp (or_introl eq_refl) Hr).
Qed.

(** ** RawRequest *)

Lemma has_prefix_https u : has_prefix (bs "https://") u = true <-> https u.
Proof. unfold https. apply has_prefix_spec. Qed.

Lemma https_false u : has_prefix (bs "https://") u = false <-> ~ https u.
Proof. rewrite <- has_prefix_https. destruct (has_prefix (bs "https://") u); split; congruence. Qed.

(** What one call of RawRequest may do: nothing, or one round. *)
Lemma http_raw_runs w hc rw q (f : option http_response -> net outcome) g tr o :
  (forall a, f a = Done (g a)) ->
  runs (andthen (http_do w hc rw q) f) tr o ->
  (hc_limit hc = 0 /\ tr = [] /\ o = g None) \/
  (length tr <= hc_limit hc /\ exists a, round w (hr_body q) q tr a /\ (o = g a \/ o = g None /\ forall rp, a = Some rp -> redirects rp)).
Proof.
  intros Hf H. apply runs_andthen in H as (tr1 & a & tr2 & H1 & H2 & ->). rewrite Hf in H2. apply runs_done_inv in H2 as [-> ->].
  rewrite app_nil_r. destruct (do_http_round _ _ _ _ _ _ _ _ _ H1) as [(Hf0 & -> & ->)|(Hl & b & Hr & [-> | [-> Hn]])]; eauto 8.
Qed.

Definition outcome_of (keep : bool) (a : option http_response) : outcome :=
  match a with
  | None => (None, Some network_error)
  | Some rp => if Z.eqb (rp_code rp) 200 then (Some rp, None)
               else (if keep then Some rp else None, Some (status_error rp))
  end.

(** The outcome of a call: if the last answer has status 200, it is returned
    without an error; otherwise there is an error. *)
Definition proper (tr : list event) (o : outcome) : Prop :=
  (exists rp, o = (Some rp, None) /\ rp_code rp = 200%Z /\ last_answer tr = Some rp) \/
  ((forall rp, last_answer tr = Some rp -> rp_code rp <> 200%Z) /\
   exists err, snd o = Some err /\ (fst o = None \/ fst o = last_answer tr)).

Lemma redirects_not_ok rp : redirects rp -> rp_code rp <> 200%Z.
Proof. unfold redirects. cbn [In]. lia. Qed.

Lemma proper_outcome w b q tr a keep o : round w b q tr a ->
  o = outcome_of keep a \/ o = outcome_of keep None /\ (forall rp, a = Some rp -> redirects rp) -> proper tr o.
Proof.
  intros Hr Ho. pose proof (round_last_answer _ _ _ _ _ Hr) as Hl. unfold proper. rewrite Hl.
  destruct Ho as [-> | [-> Hn]].
  - destruct a as [rp|]; cbn [outcome_of]; [|right; split; [discriminate|]; eexists; split; [reflexivity|left; reflexivity]].
    destruct (Z.eqb_spec (rp_code rp) 200) as [|Hc]; [left; exists rp; auto|].
    right. split; [intros rp' E; injection E as <-; exact Hc|]. eexists. split; [reflexivity|]. destruct keep; auto.
  - right. cbn [outcome_of]. split; [intros rp E; apply redirects_not_ok, Hn, E|].
    eexists. split; [reflexivity|left; reflexivity].
Qed.

Lemma proper_error err : proper [] (None, Some err).
Proof. right. split; [discriminate|]. exists err. auto. Qed.


Lemma basic_raw_runs w bc u body rw tr o : runs (basic_raw w bc u body rw) tr o ->
  proper tr o /\
  (tr = [] \/ https u /\ exists r a, first_post u [] body r /\ round w body r tr a).
Proof.
  unfold basic_raw. destruct (has_prefix (bs "https://") u) eqn:Hu; cbn [negb]; [|intros H; apply runs_done_inv in H as [-> ->]; split; [apply proper_error|auto]].
  destruct (parse_url u); [|intros H; apply runs_done_inv in H as [-> ->]; split; [apply proper_error|auto]].
  intros H. apply has_prefix_https in Hu.
  eapply (http_raw_runs _ _ _ _ _ (outcome_of true)) in H; [|intros [rp|]; cbn [outcome_of]; [destruct (Z.eqb (rp_code rp) 200)|]; reflexivity].
  destruct H as [(_ & -> & ->)|(_ & a & Hr & Ho)]; [split; [apply proper_error|auto]|].
  split; [eapply proper_outcome; eauto|]. right. split; [exact Hu|]. eexists _, a. split; [|exact Hr].
  repeat split; cbn; auto.
Qed.

Lemma vanguard_raw_runs w bc u body rw tr o : runs (vanguard_raw w bc u body rw) tr o ->
  proper tr o /\ length tr <= 10 /\
  (tr = [] \/ https u /\ exists r a, first_post u [] body r /\ round w body r tr a).
Proof.
  unfold vanguard_raw. destruct (has_prefix (bs "https://") u) eqn:Hu; cbn [negb];
    [|intros H; apply runs_done_inv in H as [-> ->]; split; [apply proper_error|cbn; split; [lia|auto]]].
  destruct (parse_url u); [|intros H; apply runs_done_inv in H as [-> ->]; split; [apply proper_error|cbn; split; [lia|auto]]].
  intros H. apply has_prefix_https in Hu.
  eapply (http_raw_runs _ _ _ _ _ (outcome_of true)) in H; [|intros [rp|]; cbn [outcome_of]; [destruct (Z.eqb (rp_code rp) 200)|]; reflexivity].
  destruct H as [(Hf0 & _)|(Hl & a & Hr & Ho)]; [discriminate Hf0|].
  split; [eapply proper_outcome; eauto|]. split; [exact Hl|]. right. split; [exact Hu|]. eexists _, a. split; [|exact Hr].
  repeat split; cbn; auto.
Qed.

Lemma cookies_raw_runs w u body rw cookies tr o : runs (cookies_raw w u body rw cookies) tr o ->
  proper tr o /\ length tr <= 10 /\
  (tr = [] \/ https u /\ exists r a, first_post u cookies body r /\ round w body r tr a).
Proof.
  unfold cookies_raw. destruct (has_prefix (bs "https://") u) eqn:Hu; cbn [negb];
    [|intros H; apply runs_done_inv in H as [-> ->]; split; [apply proper_error|cbn; split; [lia|auto]]].
  destruct (parse_url u); [|intros H; apply runs_done_inv in H as [-> ->]; split; [apply proper_error|cbn; split; [lia|auto]]].
  intros H. apply has_prefix_https in Hu.
  eapply (http_raw_runs _ _ _ _ _ (outcome_of false)) in H; [|intros [rp|]; cbn [outcome_of]; [destruct (Z.eqb (rp_code rp) 200)|]; reflexivity].
  destruct H as [(Hf0 & _)|(Hl & a & Hr & Ho)]; [discriminate Hf0|].
  split; [eapply proper_outcome; eauto|]. split; [exact Hl|]. right. split; [exact Hu|]. eexists _, a. split; [|exact Hr].
  repeat split; cbn; auto.
Qed.

Lemma vanguard_raw_sent w bc u body rw tr rp err : runs (vanguard_raw w bc u body rw) tr (Some rp, err) ->
  has_prefix (bs "https://") u = true /\ parse_url u <> None.
Proof.
  unfold vanguard_raw. destruct (has_prefix (bs "https://") u); cbn [negb]; [|intros H; apply runs_done_inv in H as [_ H]; discriminate].
  destruct (parse_url u); [split; [auto|discriminate]|intros H; apply runs_done_inv in H as [_ H]; discriminate].
Qed.

Lemma cookies_raw_sends w u body rw cookies tr o : has_prefix (bs "https://") u = true -> parse_url u <> None ->
  runs (cookies_raw w u body rw cookies) tr o -> tr <> [].
Proof.
  intros Hu Hp. unfold cookies_raw. rewrite Hu. cbn [negb]. destruct (parse_url u); [|contradiction].
  intros H. apply runs_andthen in H as (tr1 & a & tr2 & H1 & _ & ->).
  destruct (do_http_round _ _ _ _ _ _ _ _ _ H1) as [(Hf0 & _)|(_ & b & Hr & _)]; [discriminate Hf0|].
  destruct (round_ne _ _ _ _ _ Hr) as (y & tr' & ->). discriminate.
Qed.

(** The history of a call of the Discover client. *)
Lemma discover_raw_runs u body tr o : runs (discover_raw u body) tr o ->
  proper tr o /\
  (tr = [] \/
   exists x rest, https u /\ parse_url u = Some x /\
     tr = EDial (match port x with [] => u_host x ++ bs ":443" | _ => u_host x end) (match rest with [] => false | _ => true end) :: rest /\
     (rest = [] \/
      (exists ok, rest = [EWrite (discover_headers x body) ok; EWrite body false]) \/
      (exists ok a, rest = [EWrite (discover_headers x body) ok; EWrite body true; ERead a]))).
Proof.
  unfold discover_raw. destruct (has_prefix (bs "https://") u) eqn:Hu; cbn [negb];
    [|intros H; apply runs_done_inv in H as [-> ->]; split; [apply proper_error|auto]].
  apply has_prefix_https in Hu. intros H. apply runs_andthen in H as (tr1 & a & tr2 & H1 & H2 & ->).
  assert (E2 : tr2 = [] /\ o = outcome_of false a).
  { destruct a as [rp|]; cbn [outcome_of]; [destruct (Z.eqb (rp_code rp) 200)|]; apply runs_done_inv in H2; exact H2. }
  destruct E2 as [-> ->]. clear H2. rewrite app_nil_r. unfold discover_post in H1.
  destruct (parse_url u) as [x|] eqn:Ex; [|apply runs_done_inv in H1 as [-> ->]; split; [apply proper_error|auto]].
  cbv zeta in H1. set (h := match port x with [] => u_host x ++ bs ":443" | _ => u_host x end) in *.
  apply runs_dial_inv in H1 as (ok & t1 & -> & H1). destruct ok; cbn [negb] in H1.
  2:{ apply runs_done_inv in H1 as [-> ->]. split; [apply proper_error|]. right. exists x, []. auto. }
  apply runs_write_inv in H1 as (ok1 & t2 & -> & H1). apply runs_write_inv in H1 as (ok2 & t3 & -> & H1).
  destruct ok2; cbn [negb] in H1.
  2:{ apply runs_done_inv in H1 as [-> ->]. split; [apply proper_error|]. right.
      exists x, [EWrite (discover_headers x body) ok1; EWrite body false]. split; [exact Hu|].
      split; [reflexivity|]. split; [reflexivity|]. right. left. eauto. }
  apply runs_read_inv in H1 as (b & t4 & -> & H1). apply runs_done_inv in H1 as [-> ->].
  split.
  - unfold proper. cbn [last_answer answer_of last]. unfold last_answer. cbn [last answer_of]. destruct b as [rp|]; cbn [outcome_of].
    + destruct (Z.eqb_spec (rp_code rp) 200) as [|Hc]; [left; exists rp; auto|].
      right. split; [intros rp' E; injection E as <-; exact Hc|]. eexists. split; [reflexivity|auto].
    + right. split; [discriminate|]. eexists. split; [reflexivity|auto].
  - right. exists x, [EWrite (discover_headers x body) ok1; EWrite body true; ERead b]. split; [exact Hu|].
    split; [reflexivity|]. split; [reflexivity|]. right. right. eauto.
Qed.

(** ** RequestNoParse *)

Lemma marshal_settings q b q' : request_marshal q = Some (b, q') ->
  rq_url q' = rq_url q /\ rq_version q' = rq_version q /\ request_marshal q' = Some (b, q').
Proof.
  intros H. destruct (request_marshal_tree _ _ _ H) as [t T]. pose proof (request_tree_again _ _ _ T) as T'.
  assert (Hq : rq_url q' = rq_url q /\ rq_version q' = rq_version q /\ rq_indent q' = rq_indent q /\ rq_cr q' = rq_cr q).
  { revert T. unfold request_tree. destruct (signon_request_valid (rq_signon q)) as [sn [|]]; [discriminate|].
    destruct (encode_as SignonRequest_ty (SignonRequest_to sn)) as [s|]; [|discriminate]. cbn [bind].
    destruct (encode_sets (set_table (rq_slots q) Rq) (rq_version q)) as [r|]; [|discriminate]. cbn [bind].
    intros E. apply Some_inj in E. apply (f_equal snd) in E. cbn [snd] in E. subst q'. auto. }
  destruct Hq as (H1 & H2 & H3 & H4). split; [exact H1|]. split; [exact H2|].
  unfold request_marshal in *. rewrite T in H. rewrite T'. cbn [bind fst snd] in *. unfold request_style in *.
  rewrite H2, H3, H4. exact H.
Qed.

Lemma no_parse_runs w c q tr o q' : runs (request_no_parse w c q) tr (o, q') ->
  (request_marshal (set_client_fields (w_now w) c q) = None /\ tr = [] /\ o = (None, Some (marshal_failure (set_client_fields (w_now w) c q)))) \/
  exists b tr1 o1, request_marshal (set_client_fields (w_now w) c q) = Some (b, q') /\
    runs (raw_request w c (rq_url q) b true) tr1 o1 /\
    ((tr = tr1 /\ o = o1 /\
      (forall bc rp, c = Vanguard bc -> fst o1 = Some rp -> (rp_length rp <= 0)%Z -> rp_cookies rp = [])) \/
     exists bc rp tr2, c = Vanguard bc /\ fst o1 = Some rp /\ (rp_length rp <= 0)%Z /\ rp_cookies rp <> [] /\
       tr = tr1 ++ tr2 /\ runs (cookies_raw w (rq_url q) b true (rp_cookies rp)) tr2 o).
Proof.
  unfold request_no_parse. cbv zeta. set (q1 := set_client_fields (w_now w) c q).
  destruct (request_marshal q1) as [[b q2]|] eqn:E.
  2:{ intros H. apply runs_done_inv in H as [-> H]. injection H as -> ->. auto. }
  intros H. right. destruct (marshal_settings _ _ _ E) as (Hu & _ & Em).
  apply runs_andthen in H as (tr1 & o1 & tr2 & H1 & H2 & ->).
  rewrite Hu in H1. change (rq_url q1) with (rq_url q) in *. exists b, tr1, o1.
  assert (Hplain : runs (Done (o1, q2)) tr2 (o, q') ->
    (forall bc rp, c = Vanguard bc -> fst o1 = Some rp -> (rp_length rp <= 0)%Z -> rp_cookies rp = []) ->
    Some (b, q2) = Some (b, q') /\
    runs (raw_request w c (rq_url q) b true) tr1 o1 /\ ((tr1 ++ tr2 = tr1 /\ o = o1 /\
      (forall bc rp, c = Vanguard bc -> fst o1 = Some rp -> (rp_length rp <= 0)%Z -> rp_cookies rp = [])) \/
     exists bc rp tr0, c = Vanguard bc /\ fst o1 = Some rp /\ (rp_length rp <= 0)%Z /\ rp_cookies rp <> [] /\
       tr1 ++ tr2 = tr1 ++ tr0 /\ runs (cookies_raw w (rq_url q) b true (rp_cookies rp)) tr0 o)).
  { intros H Hn. apply runs_done_inv in H as [-> H]. injection H as -> ->. rewrite app_nil_r. split; [reflexivity|]. split; [exact H1|]. left. auto. }
  destruct c as [bc|bc|bc]; [apply Hplain; [exact H2|discriminate]| |apply Hplain; [exact H2|discriminate]].
  destruct (fst o1) as [rp|] eqn:Eo; [|apply Hplain; [exact H2|discriminate]].
  destruct ((rp_length rp <=? 0)%Z && negb (match rp_cookies rp with [] => true | _ => false end)) eqn:Ec.
  2:{ apply Hplain; [exact H2|]. intros _ rp' _ E' Hlen. injection E' as <-. destruct (rp_cookies rp); [reflexivity|].
      apply andb_false_iff in Ec. destruct Ec as [Ec|Ec]; [lia|discriminate Ec]. }
  apply andb_true_iff in Ec as [Ec1 Ec2]. rewrite Em in H2.
  apply runs_andthen in H2 as (tr3 & o' & tr4 & H3 & H4 & ->). apply runs_done_inv in H4 as [-> H4]. injection H4 as -> ->.
  rewrite app_nil_r. split; [reflexivity|]. split; [exact H1|]. right. exists bc, rp, tr3.
  split; [reflexivity|]. split; [reflexivity|]. split; [lia|]. split; [destruct (rp_cookies rp); [discriminate|discriminate]|].
  split; [reflexivity|]. rewrite Hu in H3. exact H3.
Qed.

Lemma raw_request_runs w c u body rw tr o : runs (raw_request w c u body rw) tr o ->
  proper tr o /\
  ((tr = []) \/ https u /\
   ((exists r a, first_post u [] body r /\ round w body r tr a) \/
    exists bc x rest, c = Discover bc /\ parse_url u = Some x /\
     tr = EDial (match port x with [] => u_host x ++ bs ":443" | _ => u_host x end) (match rest with [] => false | _ => true end) :: rest /\
     (rest = [] \/
      (exists ok, rest = [EWrite (discover_headers x body) ok; EWrite body false]) \/
      (exists ok a, rest = [EWrite (discover_headers x body) ok; EWrite body true; ERead a])))).
Proof.
  destruct c as [bc|bc|bc]; cbn [raw_request]; intros H.
  - apply basic_raw_runs in H as [H1 [H2|(Hu & r & a & Hf & Hr)]]; split; auto. right. split; auto. left. eauto.
  - apply vanguard_raw_runs in H as (H1 & _ & [H2|(Hu & r & a & Hf & Hr)]); split; auto. right. split; auto. left. eauto.
  - apply discover_raw_runs in H as [H1 [H2|(x & rest & Hu & Hp & Ht & Hc)]]; split; auto. right. split; auto. right. eauto 7.
Qed.

(** ** https *)

Lemma raw_refused w c u body rw tr o : ~ https u -> runs (raw_request w c u body rw) tr o -> tr = [] /\ o = (None, Some refused).
Proof.
  intros Hu H. apply https_false in Hu.
  destruct c; cbn [raw_request] in H; unfold basic_raw, vanguard_raw, discover_raw in H; rewrite Hu in H; apply runs_done_inv in H; exact H.
Qed.

Lemma no_parse_refused w c q tr o q' : ~ https (rq_url q) -> runs (request_no_parse w c q) tr (o, q') ->
  tr = [] /\ fst o = None /\ snd o <> None.
Proof.
  intros Hu H. apply no_parse_runs in H as [(_ & -> & ->)|(b & tr1 & o1 & _ & H1 & [(-> & -> & _)|(bc & rp & tr2 & _ & Hf & _)])].
  - cbn. split; [reflexivity|]. split; [reflexivity|discriminate].
  - apply raw_refused in H1 as [-> ->]; auto. cbn. split; [reflexivity|]. split; [reflexivity|discriminate].
  - apply raw_refused in H1 as [-> ->]; auto. discriminate.
Qed.

Lemma client_request_runs w e c q tr x q' : runs (client_request w e c q) tr (x, q') ->
  exists o, runs (request_no_parse w c q) tr (o, q') /\
    x = match o with
        | (_, Some err) => (None, Some err)
        | (None, None) => (None, None)
        | (Some rp, None) => match parse_response e (rp_body rp) with (_, Some err) => (None, Some err) | (r, None) => (r, None) end
        end.
Proof.
  unfold client_request. intros H. apply runs_andthen in H as (tr1 & [o q1] & tr2 & H1 & H2 & ->).
  apply runs_done_inv in H2 as [-> H2]. cbn [fst snd] in H2. injection H2 as -> ->. rewrite app_nil_r. eauto.
Qed.

(** Every HTTP request of a history goes to an https URL unless the answer before
    it redirected it. *)
Definition guarded (w : world) (tr : list event) : Prop :=
  forall l1 r a l2, tr = l1 ++ EHttp r a :: l2 ->
    https (hr_url r) \/ exists l0 r0 rp body, l1 = l0 ++ [EHttp r0 (Some rp)] /\ redirected w body r0 rp r.

Lemma guarded_nil w : guarded w [].
Proof. intros l1 r a l2 E. destruct l1; discriminate. Qed.

Lemma app_split_case A (a b l1 : list A) x l2 : a ++ b = l1 ++ x :: l2 ->
  (exists l3, a = l1 ++ x :: l3) \/ exists l3, l1 = a ++ l3 /\ b = l3 ++ x :: l2.
Proof.
  revert l1. induction a as [|y a IH]; intros l1 E; cbn [app] in E.
  - right. exists l1. auto.
  - destruct l1 as [|z l1]; cbn [app] in E; injection E as -> E.
    + left. exists a. reflexivity.
    + destruct (IH l1 E) as [[l3 ->]|[l3 [-> ->]]]; [left; exists l3; reflexivity|right; exists l3; auto].
Qed.

Lemma guarded_app w a b : guarded w a -> guarded w b -> guarded w (a ++ b).
Proof.
  intros Ha Hb l1 r x l2 E. destruct (app_split_case _ _ _ _ _ _ E) as [[l3 ->]|[l3 [-> ->]]].
  - exact (Ha _ _ _ _ eq_refl).
  - destruct (Hb _ _ _ _ eq_refl) as [H|(l0 & r0 & rp & body & -> & H)]; [auto|].
    right. exists (a ++ l0), r0, rp, body. rewrite app_assoc. auto.
Qed.

Lemma guarded_round w body r tr a : https (hr_url r) -> round w body r tr a -> guarded w tr.
Proof.
  intros Hu H l1 r' a' l2 E. destruct (round_event _ _ _ _ _ _ _ _ _ H E) as [[-> ->]|(l0 & r0 & rp & H')]; eauto 7.
Qed.

Lemma guarded_no_http w tr : (forall r a, ~ In (EHttp r a) tr) -> guarded w tr.
Proof. intros H l1 r a l2 ->. exfalso. apply (H r a), in_or_app. right. left. reflexivity. Qed.

Lemma raw_guarded w c u body rw tr o : runs (raw_request w c u body rw) tr o -> guarded w tr.
Proof.
  intros H. apply raw_request_runs in H as [_ [->|[Hu [(r & a & (_ & Hr & _) & Hd)|(bc & x & rest & _ & _ & -> & Hc)]]]].
  - apply guarded_nil.
  - eapply guarded_round; [|exact Hd]. rewrite Hr. exact Hu.
  - apply guarded_no_http. intros r a Hi. destruct Hc as [->|[[ok ->]|[ok [b ->]]]]; cbn in Hi; intuition discriminate.
Qed.

Lemma no_parse_guarded w c q tr o q' : runs (request_no_parse w c q) tr (o, q') -> guarded w tr.
Proof.
  intros H. apply no_parse_runs in H as [(_ & -> & _)|(b & tr1 & o1 & _ & H1 & [(-> & _ & _)|(bc & rp & tr2 & _ & _ & _ & _ & -> & H2)])].
  - apply guarded_nil.
  - eapply raw_guarded, H1.
  - apply guarded_app; [eapply raw_guarded, H1|]. apply cookies_raw_runs in H2 as (_ & _ & [->|(Hu & r & a & (_ & Hr & _) & Hd)]).
    + apply guarded_nil.
    + eapply guarded_round; [|exact Hd]. rewrite Hr. exact Hu.
Qed.

(** ** What is returned *)

Lemma last_answer_app a b : b <> [] -> last_answer (a ++ b) = last_answer b.
Proof.
  intros Hb. unfold last_answer. f_equal. induction a as [|x a IH]; [reflexivity|]. cbn [app].
  destruct (a ++ b) eqn:E; [destruct a; [contradiction|discriminate]|]. exact IH.
Qed.

Lemma proper_nil_error o : proper [] o -> exists err, o = (None, Some err).
Proof.
  intros [(rp & _ & _ & H)|(_ & err & H & [H'|H'])]; [discriminate| |]; destruct o as [a b]; cbn in *; exists err; congruence.
Qed.

Lemma no_parse_proper w c q tr o q' : runs (request_no_parse w c q) tr (o, q') -> proper tr o.
Proof.
  intros H. apply no_parse_runs in H as [(_ & -> & ->)|(b & tr1 & o1 & _ & H1 & [(-> & -> & _)|(bc & rp & tr2 & Hc & Hf & _ & _ & -> & H2)])].
  - apply proper_error.
  - apply raw_request_runs in H1. tauto.
  - assert (Hne : tr2 <> []).
    { subst c. cbn [raw_request] in H1. destruct o1 as [x err]. cbn [fst] in Hf. subst x.
      apply vanguard_raw_sent in H1 as [Hu Hp]. eapply cookies_raw_sends; eauto. }
    apply cookies_raw_runs in H2 as (H2 & _). unfold proper. rewrite last_answer_app by exact Hne. exact H2.
Qed.

Lemma proper_response tr rp err : proper tr (Some rp, err) -> last_answer tr = Some rp.
Proof.
  intros [(rp' & E & _ & H)|(_ & err' & _ & [H|H])]; cbn [fst] in *; [injection E as -> ->; exact H|discriminate|congruence].
Qed.

(** ** Vanguard *)

Lemma vanguard_rounds w bc q tr o q' : runs (request_no_parse w (Vanguard bc) q) tr (o, q') ->
  tr = [] \/
  exists body tr1 tr2 r1 a1,
    tr = tr1 ++ tr2 /\ first_post (rq_url q) [] body r1 /\ round w body r1 tr1 a1 /\ length tr1 <= 10 /\
    (tr2 = [] /\ (forall rp, fst o = Some rp -> (rp_length rp <= 0)%Z -> rp_cookies rp = []) \/
     exists rp r2 a2, a1 = Some rp /\ (rp_length rp <= 0)%Z /\ rp_cookies rp <> [] /\
       first_post (rq_url q) (rp_cookies rp) body r2 /\ round w body r2 tr2 a2 /\ length tr2 <= 10).
Proof.
  intros H. apply no_parse_runs in H as [(_ & -> & _)|(b & tr1 & o1 & _ & H1 & [(-> & -> & Hn)|(bc' & rp & tr2 & _ & Hf & Hlen & Hck & -> & H2)])].
  - auto.
  - cbn [raw_request] in H1. apply vanguard_raw_runs in H1 as (_ & Hl & [->|(_ & r & a & Hp & Hr)]); [auto|].
    right. exists b, tr1, [], r, a. rewrite app_nil_r. split; [reflexivity|]. split; [exact Hp|]. split; [exact Hr|]. split; [exact Hl|].
    left. split; [reflexivity|]. intros rp. exact (Hn bc rp eq_refl).
  - cbn [raw_request] in H1. destruct o1 as [x err]. cbn [fst] in Hf. subst x.
    pose proof (vanguard_raw_sent _ _ _ _ _ _ _ _ H1) as [Hu Hp].
    apply vanguard_raw_runs in H1 as (Hpr & Hl & Hcase). apply proper_response in Hpr.
    destruct Hcase as [->|(_ & r & a & Hp1 & Hr)]; [discriminate|].
    pose proof (cookies_raw_sends _ _ _ _ _ _ _ Hu Hp H2) as Hne.
    apply cookies_raw_runs in H2 as (_ & Hl2 & [->|(_ & r2 & a2 & Hp2 & Hr2)]); [contradiction|].
    right. exists b, tr1, tr2, r, a. split; [reflexivity|]. split; [exact Hp1|]. split; [exact Hr|]. split; [exact Hl|].
    right. exists rp, r2, a2. rewrite (round_last_answer _ _ _ _ _ Hr) in Hpr. auto 8.
Qed.

Lemma vanguard_two w bc q tr o q' : runs (request_no_parse w (Vanguard bc) q) tr (o, q') ->
  (forall r rp, In (EHttp r (Some rp)) tr -> ~ redirects rp) -> length tr <= 2.
Proof.
  intros H Hn. apply vanguard_rounds in H as [->|(body & tr1 & tr2 & r1 & a1 & -> & _ & H1 & _ & Hc)]; [cbn; lia|].
  rewrite app_length. rewrite (round_no_redirect _ _ _ _ _ H1) by (intros r rp Hi; apply (Hn r rp), in_or_app; auto).
  destruct Hc as [[-> _]|(rp & r2 & a2 & _ & _ & _ & _ & H2 & _)]; [cbn; lia|].
  rewrite (round_no_redirect _ _ _ _ _ H2) by (intros r rp' Hi; apply (Hn r rp'), in_or_app; auto). lia.
Qed.

(** ** What is sent *)

Lemma enum_version_known v : enum_valid enum_ofxVersion v = true <-> known_version v.
Proof.
  rewrite (known_version_iff v false). unfold enum_valid. cbn [en_first en_last enum_ofxVersion].
  unfold write_header. unfold OfxVersion102, OfxVersion160, OfxVersion200, OfxVersion220.
  split.
  - intros H. destruct ((1 <=? v) && (v <=? 4))%N eqn:E1.
    + assert (Hv : (v = 1 \/ v = 2 \/ v = 3 \/ v = 4)%N) by lia. destruct Hv as [->|[->|[->| ->]]]; eexists; reflexivity.
    + assert (E2 : ((5 <=? v) && (v <=? 11))%N = true) by lia. rewrite E2.
      assert (Hv : (v = 5 \/ v = 6 \/ v = 7 \/ v = 8 \/ v = 9 \/ v = 10 \/ v = 11)%N) by lia.
      destruct Hv as [->|[->|[->|[->|[->|[->| ->]]]]]]; eexists; reflexivity.
  - intros [h H]. destruct ((1 <=? v) && (v <=? 4))%N eqn:E1; [lia|].
    destruct ((5 <=? v) && (v <=? 11))%N eqn:E2; [lia|discriminate].
Qed.

Lemma client_version_known c : known_version (client_version c).
Proof.
  unfold client_version. destruct (enum_valid enum_ofxVersion (bc_SpecVersion (basic_of c))) eqn:E; apply enum_version_known; [exact E|reflexivity].
Qed.

Lemma marshalled_document now c q b q' : request_marshal (set_client_fields now c q) = Some (b, q') -> client_document now c q b.
Proof.
  intros H. destruct (request_marshal_tree _ _ _ H) as [t T].
  destruct (request_read (set_client_fields now c q) t q' b [] (client_version_known c) T H) as (t' & n & Ht & Hr & Hs).
  rewrite app_nil_r in Hr. exists t, q', t', n. auto.
Qed.

Lemma sent_documents w c q tr o q' : runs (request_no_parse w c q) tr (o, q') ->
  forall r a, In (EHttp r a) tr -> hr_body r = [] \/ client_document (w_now w) c q (hr_body r).
Proof.
  intros H r a Hi. apply no_parse_runs in H as [(_ & -> & _)|(b & tr1 & o1 & Hm & H1 & Hc)]; [destruct Hi|].
  apply marshalled_document in Hm.
  assert (Hr1 : In (EHttp r a) tr1 -> hr_body r = [] \/ hr_body r = b).
  { intros Hi1. apply raw_request_runs in H1 as [_ [->|[_ [(r1 & a1 & (_ & _ & _ & Hb & _) & Hr)|(bc & x & rest & _ & _ & -> & Hd)]]]].
    - destruct Hi1.
    - eapply round_body; eauto.
    - exfalso. destruct Hd as [->|[[ok ->]|[ok [y ->]]]]; cbn in Hi1; intuition discriminate. }
  destruct Hc as [(-> & _)|(bc & rp & tr2 & _ & _ & _ & _ & -> & H2)].
  - destruct (Hr1 Hi) as [->| ->]; auto.
  - apply in_app_or in Hi as [Hi|Hi]; [destruct (Hr1 Hi) as [->| ->]; auto|].
    apply cookies_raw_runs in H2 as (_ & _ & [->|(_ & r1 & a1 & (_ & _ & _ & Hb & _) & Hr)]); [destruct Hi|].
    destruct (round_body _ _ _ _ _ _ _ Hr Hb Hi) as [->| ->]; auto.
Qed.

(** ** Discover *)

Lemma discover_history w bc u body rw tr o : runs (raw_request w (Discover bc) u body rw) tr o ->
  tr = [] \/
  exists x, https u /\ parse_url u = Some x /\
    let host := match port x with [] => u_host x ++ bs ":443" | _ => u_host x end in
    tr = [EDial host false] \/
    (exists ok, tr = [EDial host true; EWrite (discover_headers x body) ok; EWrite body false]) \/
    (exists ok a, tr = [EDial host true; EWrite (discover_headers x body) ok; EWrite body true; ERead a]).
Proof.
  cbn [raw_request]. intros H. apply discover_raw_runs in H as [_ [->|(x & rest & Hu & Hp & -> & Hc)]]; [auto|].
  right. exists x. split; [exact Hu|]. split; [exact Hp|]. cbv zeta. destruct Hc as [->|[[ok ->]|[ok [a ->]]]]; eauto.
Qed.

Lemma in_cons_ne (A : Type) (x y : A) l : x <> y -> In x (y :: l) -> In x l.
Proof. intros Hn [->|H]; [contradiction|exact H]. Qed.

Definition harmless (c : ascii) : Prop := c <> chr 13 /\ c <> chr 10.

Lemma host_escape_harmless c : host_escape c = false -> harmless c.
Proof. intros H. split; intros ->; discriminate H. Qed.

Lemma hex_small c : is_hex c = true -> (unhex c < 16)%N.
Proof. unfold is_hex, unhex. destruct (is_digit c) eqn:E; unfold is_digit in E; [lia|]. destruct (97 <=? code c)%N eqn:E1; lia. Qed.

Lemma high_harmless c : (128 <= code c)%N -> harmless c.
Proof. intros H. split; intros ->; vm_compute in H; apply H; reflexivity. Qed.

Lemma unescape_harmless m s h : m <> MPlain -> unescape m s = Some h -> Forall harmless h.
Proof.
  intros Hm. revert h. induction s as [s IH] using (induction_ltof1 _ (@length ascii)). unfold ltof in IH. intros h H.
  destruct s as [|c r]; cbn [unescape] in H; [injection H as <-; constructor|].
  destruct (Ascii.eqb c "%") eqn:Ec.
  - destruct r as [|a [|b r']]; try discriminate. destruct (is_hex a && is_hex b) eqn:Eh; cbn [negb] in H; [|discriminate].
    apply andb_true_iff in Eh as [Ha Hb]. apply hex_small in Ha, Hb. cbv zeta in H.
    destruct (str_eqb [a; b] (bs "25")) eqn:Ep.
    + apply str_eqb_eq in Ep. injection Ep as -> ->. cbn [negb andb] in H. rewrite andb_false_r in H.
      assert (E : option_map (cons "%"%char) (unescape m r') = Some h) by (destruct m; [contradiction|exact H|exact H]).
      destruct (unescape m r') as [h'|] eqn:Er; [|discriminate]. injection E as <-. constructor; [split; discriminate|].
      apply (IH r'); [cbn; lia|exact Er].
    + assert (Hv : harmless (chr (unhex a * 16 + unhex b)) /\ option_map (cons (chr (unhex a * 16 + unhex b))) (unescape m r') = Some h).
      { destruct m; [contradiction| |].
        - cbn [negb andb] in H. rewrite andb_true_r in H. destruct (unhex a <? 8)%N eqn:Ea; [discriminate|]. split; [|exact H].
          apply high_harmless. unfold code, chr. rewrite N_ascii_embedding by lia. lia.
        - cbn [negb andb] in H. destruct (Ascii.eqb (chr (unhex a * 16 + unhex b)) " ") eqn:Es; cbn [negb andb] in H.
          + apply Ascii.eqb_eq in Es. rewrite Es in *. split; [split; discriminate|exact H].
          + destruct (host_escape (chr (unhex a * 16 + unhex b))) eqn:Ee; [discriminate|]. split; [apply host_escape_harmless, Ee|exact H]. }
      destruct Hv as [Hv E]. destruct (unescape m r') as [h'|] eqn:Er; [|discriminate]. injection E as <-. constructor; [exact Hv|].
      apply (IH r'); [cbn; lia|exact Er].
  - assert (Hv : harmless c /\ option_map (cons c) (unescape m r) = Some h).
    { assert (Hg : (if (code c <? 128)%N && host_escape c then None else option_map (cons c) (unescape m r)) = Some h)
        by (destruct m; [contradiction|exact H|exact H]).
      destruct (code c <? 128)%N eqn:E1; cbn [andb] in Hg.
      - destruct (host_escape c) eqn:E2; [discriminate|]. split; [apply host_escape_harmless, E2|exact Hg].
      - split; [apply high_harmless; lia|exact Hg]. }
    destruct Hv as [Hv E]. destruct (unescape m r) as [h'|] eqn:Er; [|discriminate]. injection E as <-. constructor; [exact Hv|].
    apply (IH r); [cbn; lia|exact Er].
Qed.

Lemma parse_host_harmless s h : parse_host s = Some h -> Forall harmless h.
Proof.
  unfold parse_host. assert (Hm : MHost <> MPlain) by discriminate.
  destruct (has_prefix (bs "[") s).
  - destruct (cut_last "]" s) as [[inner p]|]; [|discriminate]. destruct (valid_port p); [|discriminate]. cbn [negb].
    destruct (index_of (bs "%25") inner) as [i|]; [|apply unescape_harmless, Hm].
    destruct (unescape MHost (firstn i inner)) as [a|] eqn:Ea; [|discriminate]. cbn [bind].
    destruct (unescape MZone (skipn i inner)) as [b|] eqn:Eb; [|discriminate]. cbn [bind].
    destruct (unescape MHost ("]"%char :: p)) as [c|] eqn:Ec; [|discriminate]. cbn [bind].
    intros H. injection H as <-. apply Forall_app. split; [exact (unescape_harmless _ _ _ Hm Ea)|]. apply Forall_app.
    split; [apply (unescape_harmless MZone _ _ ltac:(discriminate) Eb) | exact (unescape_harmless _ _ _ Hm Ec)].
  - destruct (cut_last ":" s) as [[a p]|]; [|apply unescape_harmless, Hm]. destruct (forallb is_digit p); [apply unescape_harmless, Hm|discriminate].
Qed.

Lemma parse_url_host u x : parse_url u = Some x -> Forall harmless (u_host x).
Proof.
  unfold parse_url. cbv zeta. destruct (existsb _ (fst (cut "#" u))); [discriminate|].
  destruct (parse_authority _) as [h|] eqn:Eh; [|discriminate]. cbn [bind].
  destruct (unescape MPlain (skipn _ _)) as [p|]; [|discriminate]. cbn [bind].
  destruct (unescape MPlain (snd (cut "#" u))); [|discriminate]. cbn [bind]. intros H. injection H as <-. cbn [u_host].
  revert Eh. unfold parse_authority. destruct (cut_last "@" _) as [[a b]|]; [|apply parse_host_harmless].
  destruct (parse_host b) as [h'|] eqn:E; [|discriminate]. cbn [bind]. destruct (valid_userinfo a); [|discriminate]. cbn [negb].
  destruct (unescape MPlain (fst (cut ":" a))); [|discriminate]. cbn [bind].
  destruct (unescape MPlain (snd (cut ":" a))); [|discriminate]. cbn [bind]. intros H. injection H as <-. eapply parse_host_harmless, E.
Qed.

Lemma cut_last_app c s a b : cut_last c s = Some (a, b) -> s = a ++ c :: b.
Proof.
  revert a b. induction s as [|d r IH]; intros a b H; [discriminate|]. cbn [cut_last] in H.
  destruct (cut_last c r) as [[x y]|]; [injection H as <- <-; rewrite (IH x y eq_refl); reflexivity|].
  destruct (Ascii.eqb c d) eqn:E; [|discriminate]. apply Ascii.eqb_eq in E. injection H as <- <-. subst. reflexivity.
Qed.

Lemma removelast_in (l : str) c : In c (removelast l) -> In c l.
Proof. induction l as [|x l IH]; [auto|]. cbn [removelast]. destruct l; [intros []|]. intros [->|H]; [left; auto|right; apply IH, H]. Qed.

Lemma hostname_one_line u x : parse_url u = Some x -> one_line (hostname x).
Proof.
  intros H. apply parse_url_host in H. rewrite Forall_forall in H.
  assert (Hsub : forall c, In c (hostname x) -> In c (u_host x)).
  { intros c. unfold hostname, split_host_port. cbv zeta.
    set (y := match cut_last ":" (u_host x) with Some (a, p) => if forallb is_digit p then (a, p) else (u_host x, []) | None => (u_host x, []) end).
    assert (Hy : In c (fst y) -> In c (u_host x)).
    { unfold y. destruct (cut_last ":" (u_host x)) as [[a p]|] eqn:E; [|auto]. apply cut_last_app in E.
      destruct (forallb is_digit p); [|auto]. cbn [fst]. rewrite E. intros Hc. apply in_or_app. auto. }
    cbn [fst]. destruct (has_prefix (bs "[") (fst y) && has_suffix (bs "]") (fst y)); [|exact Hy].
    intros Hc. apply Hy. apply removelast_in in Hc. destruct (fst y); [exact Hc|right; exact Hc]. }
  split; intros Hc; apply Hsub, H in Hc; destruct Hc as [H1 H2]; congruence.
Qed.

Lemma digits_one_line s n : digits s n -> one_line s.
Proof.
  intros H. induction H as [|s v c d H IH Hd]; [split; intros []|]. destruct Hd as (k & Hk & _). apply nth_error_In in Hk.
  destruct IH as [I1 I2]. split; intros Hc; apply in_app_or in Hc as [Hc|[Hc|[]]]; auto; subst c; revert Hk; cbn; intuition discriminate.
Qed.

Lemma discover_framing u x body : parse_url u = Some x -> request_target (match u_path x with [] => bs "/" | p => p end) ->
  exists len, digits len (Z.of_nat (length body)) /\ len <> [] /\
    http_message (match u_path x with [] => bs "/" | p => p end)
      [(bs "Content-Type", bs "application/x-ofx"); (bs "Host", hostname x); (bs "Content-Length", len); (bs "Connection", bs "Keep-Alive")]
      body (discover_headers x body ++ body).
Proof.
  intros Hx Ht. exists (fmt_d (Z.of_nat (length body))).
  assert (Hd : fmt_d (Z.of_nat (length body)) <> [] /\ digits (fmt_d (Z.of_nat (length body))) (Z.of_nat (length body))).
  { unfold fmt_d. destruct (Z.of_nat (length body) <? 0)%Z eqn:E; [lia|]. split; [apply fmt_nat_nonempty; lia|].
    apply digits_iff. split; [apply fmt_nat_digits; lia | apply fmt_nat_dval; lia]. }
  destruct Hd as [Hne Hd]. split; [exact Hd|]. split; [exact Hne|]. unfold http_message. split; [exact Ht|]. split.
  - assert (Hc : forall s, forallb (fun c => negb (Ascii.eqb c (chr 13) || Ascii.eqb c (chr 10))) s = true -> one_line s).
    { intros s Hs. rewrite forallb_forall in Hs. split; intros Hc; apply Hs in Hc; discriminate. }
    repeat apply Forall_cons; try apply Forall_nil; cbn [fst snd]; split; try (apply Hc; reflexivity).
    + eapply hostname_one_line, Hx.
    + eapply digits_one_line, Hd.
  - unfold discover_headers, crlf. cbv zeta. cbn [map concat]. unfold header_line. cbn [fst snd].
    repeat rewrite <- app_assoc. reflexivity.
Qed.

(** The path of a URL without percent signs has no line ends. *)
Lemma unescape_plain s : ~ In "%"%char s -> unescape MPlain s = Some s.
Proof.
  induction s as [|c r IH]; intros H; [reflexivity|]. cbn [unescape].
  destruct (Ascii.eqb c "%") eqn:E; [apply Ascii.eqb_eq in E; subst; exfalso; apply H; left; reflexivity|].
  rewrite IH by (intros Hc; apply H; right; exact Hc). reflexivity.
Qed.

Lemma cut_in c s x : In x (fst (cut c s)) -> In x s.
Proof.
  induction s as [|d r IH]; [auto|]. cbn [cut]. destruct (Ascii.eqb c d); [intros []|]. cbn [fst]. intros [->|H]; [left; auto|right; auto].
Qed.

Lemma skipn_in (A : Type) n (l : list A) x : In x (skipn n l) -> In x l.
Proof. revert l. induction n as [|n IH]; intros [|y l]; cbn; auto. Qed.

Lemma plain_path u x : ~ In "%"%char u -> parse_url u = Some x -> one_line (u_path x).
Proof.
  intros Hp. unfold parse_url. cbv zeta. destruct (existsb _ (fst (cut "#" u))) eqn:Ee; [discriminate|].
  destruct (parse_authority _) as [h|]; [|discriminate]. cbn [bind].
  set (s := skipn (length (fst (cut "/" (fst (cut "?" (skipn 8 (fst (cut "#" u)))))))) (fst (cut "?" (skipn 8 (fst (cut "#" u)))))).
  assert (Hs : forall c, In c s -> In c (fst (cut "#" u))).
  { intros c Hc. unfold s in Hc. apply skipn_in, cut_in, skipn_in in Hc. exact Hc. }
  rewrite unescape_plain by (intros Hc; apply Hs, cut_in in Hc; exact (Hp Hc)). cbn [bind].
  destruct (unescape MPlain (snd (cut "#" u))); [|discriminate]. cbn [bind]. intros H. injection H as <-. cbn [u_path].
  assert (Hn : forall c, In c s -> (code c <? 32)%N || (code c =? 127)%N = false).
  { intros c Hc. apply Hs in Hc. destruct ((code c <? 32)%N || (code c =? 127)%N) eqn:E; [|reflexivity].
    assert (existsb (fun c => (code c <? 32)%N || (code c =? 127)%N) (fst (cut "#" u)) = true) by (apply existsb_exists; eauto). congruence. }
  split; intros Hc; apply Hn in Hc; discriminate.
Qed.

(** ** GetClient *)

Lemma trim_left_char_spec c s : exists a, s = a ++ trim_left_char c s /\ Forall (fun x => x = c) a.
Proof.
  induction s as [|x s IH]; [exists []; auto|]. cbn [trim_left_char]. destruct (Ascii.eqb x c) eqn:E; [|exists []; auto].
  apply Ascii.eqb_eq in E. subst. destruct IH as (a & Ha & Hf). exists (c :: a). split; [cbn; congruence|constructor; auto].
Qed.

Lemma trim_left_char_app c a s : Forall (fun x => x = c) a -> trim_left_char c (a ++ s) = trim_left_char c s.
Proof. intros H. induction H as [|x a -> H IH]; [reflexivity|]. cbn. rewrite Ascii.eqb_refl. exact IH. Qed.

Lemma Forall_rev' (A : Type) (P : A -> Prop) l : Forall P l -> Forall P (rev l).
Proof. rewrite !Forall_forall. intros H x Hx. apply H. apply in_rev. exact Hx. Qed.

Lemma trim_char_known known u : known <> [] -> hd (chr 0) known <> chr 47 -> last known (chr 0) <> chr 47 ->
  (known = trim_char "/" u <-> known_as known u).
Proof.
  intros Hne Hh Hl. assert (Hrev : exists y r, rev known = y :: r /\ y <> chr 47).
  { destruct (rev known) as [|y r] eqn:E; [apply (f_equal (@rev ascii)) in E; rewrite rev_involutive in E; contradiction|].
    exists y, r. split; [reflexivity|]. apply (f_equal (@rev ascii)) in E. rewrite rev_involutive in E. cbn [rev] in E.
    rewrite E in Hl. rewrite last_last in Hl. exact Hl. }
  destruct Hrev as (y & r & Er & Hy). split.
  - intros ->. unfold trim_char, trim_right_char, known_as.
    destruct (trim_left_char_spec "/" u) as (a & Ha & Hfa). set (v := trim_left_char "/" u) in *.
    destruct (trim_left_char_spec "/" (rev v)) as (b & Hb & Hfb). set (z := trim_left_char "/" (rev v)) in *.
    exists a, (rev b). split; [exact Hfa|]. split; [apply Forall_rev', Hfb|].
    apply (f_equal (@rev ascii)) in Hb. rewrite rev_involutive, rev_app_distr in Hb. rewrite <- Hb. exact Ha.
  - intros (a & b & Ha & Hb & ->). unfold trim_char, trim_right_char.
    rewrite trim_left_char_app by exact Ha. destruct known as [|k known]; [contradiction|]. cbn [hd] in Hh.
    cbn [app trim_left_char]. destruct (Ascii.eqb k "/") eqn:E; [apply Ascii.eqb_eq in E; contradiction|].
    change (k :: known ++ b) with ((k :: known) ++ b). rewrite rev_app_distr.
    rewrite trim_left_char_app by (apply Forall_rev', Hb). rewrite Er. cbn [trim_left_char].
    destruct (Ascii.eqb y "/") eqn:E2; [apply Ascii.eqb_eq in E2; contradiction|]. rewrite <- Er, rev_involutive. reflexivity.
Qed.

Lemma get_client_cases u bc :
  (known_as discover_url u -> get_client u bc = Discover bc) /\
  (known_as vanguard_url u -> get_client u bc = Vanguard bc) /\
  (~ known_as discover_url u -> ~ known_as vanguard_url u -> get_client u bc = Basic bc).
Proof.
  unfold get_client, discover_url, vanguard_url.
  rewrite <- (trim_char_known (bs "https://ofx.discovercard.com") u) by (vm_compute; discriminate).
  rewrite <- (trim_char_known (bs "https://vesnc.vanguard.com/us/OfxDirectConnectServlet") u) by (vm_compute; discriminate).
  set (v := trim_char "/" u). split; [|split].
  - intros <-. reflexivity.
  - intros <-. reflexivity.
  - intros H1 H2. destruct (str_eqb (bs "https://ofx.discovercard.com") v) eqn:E1; [apply str_eqb_eq in E1; contradiction|].
    destruct (str_eqb (bs "https://vesnc.vanguard.com/us/OfxDirectConnectServlet") v) eqn:E2; [apply str_eqb_eq in E2; contradiction|reflexivity].
Qed.

(** ** Request *)

Lemma request_result w e c q tr r err q' : runs (client_request w e c q) tr ((r, err), q') ->
  (exists r0 rp, r = Some r0 /\ err = None /\ last_answer tr = Some rp /\ rp_code rp = 200%Z /\
     decode_response e (rp_body rp) = Some r0 /\ response_valid r0 = None) \/
  (r = None /\ err <> None /\
   forall rp r0, last_answer tr = Some rp -> rp_code rp = 200%Z -> decode_response e (rp_body rp) = Some r0 -> response_valid r0 <> None).
Proof.
  intros H. apply client_request_runs in H as (o & H & E). apply no_parse_proper in H.
  destruct H as [(rp & -> & Hc & Hl)|(Hc & err0 & Ho & _)].
  - unfold parse_response in E. destruct (decode_response e (rp_body rp)) as [r0|] eqn:Ed.
    + destruct (response_valid r0) as [v|] eqn:Ev; injection E as -> ->.
      * right. split; [reflexivity|]. split; [discriminate|]. intros rp' r1 Hl' _ Hd. rewrite Hl in Hl'. injection Hl' as <-. congruence.
      * left. exists r0, rp. auto 8.
    + injection E as -> ->. right. split; [reflexivity|]. split; [discriminate|]. intros rp' r1 Hl' _ Hd. rewrite Hl in Hl'. injection Hl' as <-. congruence.
  - destruct o as [[x|] [y|]]; try discriminate; injection E as -> ->; right; (split; [reflexivity|]; split; [discriminate|]);
    intros rp r0 Hl Hok; exfalso; exact (Hc rp Hl Hok).
Qed.

(** ** Running programs with given answers, for examples *)

Inductive reply := RHttp (a : option http_response) | ROk (b : bool).

Fixpoint drive {A} (p : net A) (l : list reply) : option (list event * A) :=
  match p with
  | Done a => Some ([], a)
  | Http r k => match l with
                | RHttp a :: l' => option_map (fun x => (EHttp r a :: fst x, snd x)) (drive (k a) l')
                | _ => None
                end
  | Dial h k => match l with
                | ROk a :: l' => option_map (fun x => (EDial h a :: fst x, snd x)) (drive (k a) l')
                | _ => None
                end
  | Write b k => match l with
                 | ROk a :: l' => option_map (fun x => (EWrite b a :: fst x, snd x)) (drive (k a) l')
                 | _ => None
                 end
  | Read k => match l with
              | RHttp a :: l' => option_map (fun x => (ERead a :: fst x, snd x)) (drive (k a) l')
              | _ => None
              end
  end.

Lemma drive_runs A (p : net A) : forall l tr x, drive p l = Some (tr, x) -> runs p tr x.
Proof.
  induction p as [a|r k IH|h k IH|b k IH|k IH]; intros l tr x H; cbn [drive] in H.
  - injection H as <- <-. constructor.
  - destruct l as [|[a|a] l]; try discriminate. destruct (drive (k a) l) as [[t y]|] eqn:E; [|discriminate].
    injection H as <- <-. constructor. eapply IH, E.
  - destruct l as [|[a|a] l]; try discriminate. destruct (drive (k a) l) as [[t y]|] eqn:E; [|discriminate].
    injection H as <- <-. constructor. eapply IH, E.
  - destruct l as [|[a|a] l]; try discriminate. destruct (drive (k a) l) as [[t y]|] eqn:E; [|discriminate].
    injection H as <- <-. constructor. eapply IH, E.
  - destruct l as [|[a|a] l]; try discriminate. destruct (drive (k a) l) as [[t y]|] eqn:E; [|discriminate].
    injection H as <- <-. constructor. eapply IH, E.
Qed.

Lemma drive_case A (p : net A) l (P : list event -> A -> bool) :
  match drive p l with Some (tr, x) => P tr x | None => false end = true -> exists tr x, runs p tr x /\ P tr x = true.
Proof. destruct (drive p l) as [[tr x]|] eqn:E; [|discriminate]. intros H. exists tr, x. split; [eapply drive_runs, E|exact H]. Qed.
