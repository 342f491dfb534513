(** The histories of HTTP requests. *)
From Coq Require Import QArith Lia Bool ZifyBool ZifyNat.
From Verif Require Import GoStr SpecStr GoStrFacts GoTime Types Records Common Codec Document Wire Url Clients SpecClients ClientFacts SpecHttp.
Close Scope Q_scope.

Lemma code_in l c : existsb (Z.eqb c) l = true <-> In c l.
Proof.
  rewrite existsb_exists. split.
  - intros (x & Hx & E). apply Z.eqb_eq in E. subst. exact Hx.
  - intros H. exists c. split; [exact H|apply Z.eqb_refl].
Qed.

Lemma code_out l c : existsb (Z.eqb c) l = false <-> ~ In c l.
Proof. rewrite <- code_in. apply iff_sym, not_true_iff_false. Qed.

(** The decision to follow. *)
Lemma redirect_none m again rp : redirect m again rp = None <-> ~ moved again rp.
Proof.
  unfold redirect, moved. destruct (existsb (Z.eqb (rp_code rp)) [301; 302; 303]%Z) eqn:E1.
  - apply code_in in E1. split; [discriminate|]. intros H. exfalso. apply H. left. exact E1.
  - apply code_out in E1. destruct (existsb (Z.eqb (rp_code rp)) [307; 308]%Z) eqn:E2.
    + apply code_in in E2. destruct (rp_location rp) as [|c l]; [split; [intros _ [H|(_ & H & _)]; [contradiction|congruence]|reflexivity]|].
      destruct again; cbn [negb].
      * split; [discriminate|]. intros H. exfalso. apply H. right. repeat split; [exact E2|discriminate].
      * split; [intros _ [H|(_ & _ & H)]; [contradiction|discriminate]|reflexivity].
    + apply code_out in E2. split; [intros _ [H|(H & _)]; contradiction|reflexivity].
Qed.

Definition known_method (m : str) : Prop := m = bs "POST" \/ m = bs "GET".

Lemma redirect_some m again rp m' b : known_method m -> redirect m again rp = Some (m', b) ->
  moved again rp /\ (In (rp_code rp) [301; 302; 303]%Z /\ m' = bs "GET" /\ b = false \/ In (rp_code rp) [307; 308]%Z /\ m' = m /\ b = true).
Proof.
  intros Hm. unfold redirect, moved. destruct (existsb (Z.eqb (rp_code rp)) [301; 302; 303]%Z) eqn:E1.
  - apply code_in in E1. intros H. injection H as <- <-. split; [left; exact E1|]. left. split; [exact E1|]. split; [|reflexivity].
    destruct Hm as [-> | ->]; reflexivity.
  - destruct (existsb (Z.eqb (rp_code rp)) [307; 308]%Z) eqn:E2; [|discriminate]. apply code_in in E2.
    destruct (rp_location rp) as [|c l]; [discriminate|]. destruct again; [|discriminate]. cbn [negb]. intros H. injection H as <- <-.
    split; [right; repeat split; [exact E2|discriminate]|]. right. auto.
Qed.

Lemma codes_apart c : In c [301; 302; 303]%Z -> In c [307; 308]%Z -> False.
Proof. cbn. lia. Qed.

(** The next request, as [do_http] makes it. *)
Definition next_of (w : world) (first : http_request) (method target : str) (b : bool) : http_request :=
  mkHttpRequest method target (fst (w_carry w first target)) (snd (w_carry w first target)) (if b then hr_body first else []).

Lemma onward_next w first r rp r' m b again : known_method (hr_method r) -> redirect (hr_method r) again rp = Some (m, b) ->
  (onward w first r rp r' <-> exists target, w_resolve w (hr_url r) (rp_location rp) = Some target /\ r' = next_of w first m target b).
Proof.
  intros Hm H. apply redirect_some in H as [_ H]; [|exact Hm]. unfold onward, next_of. split.
  - intros (Hr & Hc & Hh). exists (hr_url r'). split; [exact Hr|]. destruct r' as [m' u' h' c' b']. cbn [hr_method hr_url hr_headers hr_cookies hr_body] in *.
    rewrite <- Hh. cbn [fst snd]. destruct H as [(H & -> & ->)|(H & -> & ->)]; destruct Hc as [(H' & -> & ->)|(H' & -> & ->)];
      try reflexivity; destruct (codes_apart _ ltac:(eassumption) ltac:(eassumption)).
  - intros (target & Hr & ->). cbn [hr_method hr_url hr_headers hr_cookies hr_body]. split; [exact Hr|]. split.
    + destruct H as [(H & -> & ->)|(H & -> & ->)]; auto.
    + destruct (w_carry w first target). reflexivity.
Qed.

Lemma onward_method w first r rp r' : known_method (hr_method r) -> onward w first r rp r' -> known_method (hr_method r').
Proof. intros Hm (_ & [(_ & -> & _)|(_ & -> & _)] & _); [right; reflexivity|exact Hm]. Qed.

Lemma do_http_followed w hc again first : forall fuel sent r tr x, known_method (hr_method r) ->
  length sent + fuel = hc_limit hc -> fuel <> 0 ->
  (runs (do_http w hc again fuel first sent r) tr x <-> followed w hc again first sent r tr x).
Proof.
  induction fuel as [|fuel IH]; intros sent r tr x Hm Hl Hf; [contradiction|]. clear Hf. cbn [do_http]. split.
  - intros H. apply runs_http_inv in H as (a & tr' & -> & H). destruct a as [rp|]; [|apply runs_done_inv in H as [-> ->]; constructor].
    destruct (redirect (hr_method r) again rp) as [[m b]|] eqn:Er.
    2:{ apply runs_done_inv in H as [-> ->]. apply fo_answered. apply redirect_none in Er. exact Er. }
    pose proof (redirect_some _ _ _ _ _ Hm Er) as [Hmv _].
    destruct (rp_location rp) as [|c l] eqn:El; [apply runs_done_inv in H as [-> ->]; apply fo_nowhere; auto|].
    rewrite <- El in H. assert (Hne : rp_location rp <> []) by congruence. clear c l El.
    destruct (w_resolve w (hr_url r) (rp_location rp)) as [target|] eqn:Et; [|apply runs_done_inv in H as [-> ->]; apply fo_nowhere; auto].
    cbv zeta in H. fold (next_of w first m target b) in H.
    assert (Ho : onward w first r rp (next_of w first m target b)) by (eapply onward_next; eauto).
    destruct (hc_check hc (next_of w first m target b) (r :: sent)) as [[|]|] eqn:Ec.
    + destruct fuel as [|fuel].
      * cbn [do_http] in H. apply runs_done_inv in H as [-> ->]. eapply fo_limit; eauto. cbn [length]. lia.
      * eapply fo_next; eauto; [cbn [length]; lia|]. apply IH; [eapply onward_method; eauto|cbn [length]; lia|discriminate|exact H].
    + apply runs_done_inv in H as [-> ->]. eapply fo_forbidden; eauto.
    + apply runs_done_inv in H as [-> ->]. eapply fo_kept; eauto.
  - assert (Hmv : forall rp, moved again rp -> rp_location rp <> [] -> exists m b, redirect (hr_method r) again rp = Some (m, b)).
    { intros rp H _. destruct (redirect (hr_method r) again rp) as [[m b]|] eqn:Er; [eauto|]. apply redirect_none in Er. contradiction. }
    intros H. destruct H as [sent r|sent r rp Hn|sent r rp Hv Hw|sent r rp r' Hv Hw Ho Hc|sent r rp r' Hv Hw Ho Hc|sent r rp r' Hv Hw Ho Hc Hlim|sent r rp r' tr a Hv Hw Ho Hc Hlim H].
    + apply (runs_http _ _ None). constructor.
    + apply (runs_http _ _ (Some rp)). apply (redirect_none (hr_method r)) in Hn. rewrite Hn. constructor.
    + apply (runs_http _ _ (Some rp)). destruct (redirect (hr_method r) again rp) as [[m b]|] eqn:Er; [|apply redirect_none in Er; contradiction].
      destruct (rp_location rp); [constructor|]. destruct Hw as [Hw|Hw]; [discriminate|]. rewrite Hw. constructor.
    + apply (runs_http _ _ (Some rp)). destruct (Hmv rp Hv Hw) as (m & b & Er). rewrite Er. apply (onward_next _ _ _ _ _ _ _ _ Hm Er) in Ho as (target & Et & ->).
      revert Et Hw. destruct (rp_location rp); [contradiction|]. intros Et _. rewrite Et. cbv zeta. fold (next_of w first m target b). rewrite Hc. constructor.
    + apply (runs_http _ _ (Some rp)). destruct (Hmv rp Hv Hw) as (m & b & Er). rewrite Er. apply (onward_next _ _ _ _ _ _ _ _ Hm Er) in Ho as (target & Et & ->).
      revert Et Hw. destruct (rp_location rp); [contradiction|]. intros Et _. rewrite Et. cbv zeta. fold (next_of w first m target b). rewrite Hc. constructor.
    + apply (runs_http _ _ (Some rp)). destruct (Hmv rp Hv Hw) as (m & b & Er). rewrite Er. apply (onward_next _ _ _ _ _ _ _ _ Hm Er) in Ho as (target & Et & ->).
      revert Et Hw. destruct (rp_location rp); [contradiction|]. intros Et _. rewrite Et. cbv zeta. fold (next_of w first m target b). rewrite Hc.
      cbn [length] in Hlim. assert (fuel = 0) as -> by lia. constructor.
    + apply (runs_http _ _ (Some rp)). destruct (Hmv rp Hv Hw) as (m & b & Er). rewrite Er. pose proof (onward_method _ _ _ _ _ Hm Ho) as Hm'.
      apply (onward_next _ _ _ _ _ _ _ _ Hm Er) in Ho as (target & Et & ->).
      revert Et Hw. destruct (rp_location rp); [contradiction|]. intros Et _. rewrite Et. cbv zeta. fold (next_of w first m target b). rewrite Hc.
      cbn [length] in Hlim. apply IH; [exact Hm'|cbn [length]; lia|lia|exact H].
Qed.

(** ** RawRequest *)

Lemma agent_header_iff bc l : agent_header (bc_UserAgent bc) l <-> l = user_agent bc.
Proof.
  unfold agent_header, user_agent. destruct (bc_UserAgent bc) as [|c s]; split.
  - intros [[_ ->]|[H _]]; [reflexivity|contradiction].
  - intros ->. left. auto.
  - intros [[H _]|[_ ->]]; [discriminate|reflexivity].
  - intros ->. right. split; [discriminate|reflexivity].
Qed.

Definition outcome_net (keep : bool) (a : option http_response) : net outcome :=
  match a with
  | None => Done (None, Some network_error)
  | Some rp => if keep then Done (Some rp, if Z.eqb (rp_code rp) 200 then None else Some (status_error rp))
               else if Z.eqb (rp_code rp) 200 then Done (Some rp, None) else Done (None, Some (status_error rp))
  end.

Lemma outcome_returned keep a tr o : runs (outcome_net keep a) tr o -> tr = [] /\ returned keep a o.
Proof.
  unfold outcome_net. destruct a as [rp|].
  - destruct keep; destruct (Z.eqb_spec (rp_code rp) 200) as [E|E]; intros H; apply runs_done_inv in H as [-> ->]; (split; [reflexivity|]);
      try (apply re_ok; exact E); [exact (re_status true rp E)|exact (re_status false rp E)].
  - intros H. apply runs_done_inv in H as [-> ->]. split; [reflexivity|constructor].
Qed.

Lemma outcome_exists keep a : exists o, runs (outcome_net keep a) [] o /\ returned keep a o.
Proof.
  destruct a as [rp|]; [destruct keep; destruct (Z.eqb_spec (rp_code rp) 200) as [E|E]|]; unfold outcome_net; eexists.
  - split; [constructor|]. rewrite E. apply re_ok, E.
  - split; [constructor|]. apply Z.eqb_neq in E as E'. rewrite E'. exact (re_status true rp E).
  - split; [rewrite E; constructor|apply re_ok, E].
  - split; [apply Z.eqb_neq in E as E'; rewrite E'; constructor|exact (re_status false rp E)].
  - split; constructor.
Qed.

Lemma http_history w hc again r keep tr o : hc_limit hc <> 0 -> hr_method r = bs "POST" ->
  runs (andthen (http_do w hc again r) (outcome_net keep)) tr o ->
  exists a, followed w hc again r [] r tr a /\ returned keep a o.
Proof.
  intros Hl Hm H. apply runs_andthen in H as (tr1 & a & tr2 & H1 & H2 & ->). apply outcome_returned in H2 as [-> Hr]. rewrite app_nil_r.
  exists a. split; [|exact Hr]. unfold http_do in H1. apply do_http_followed in H1; [exact H1|left; exact Hm|reflexivity|exact Hl].
Qed.

Lemma http_possible w hc again r keep tr a : hc_limit hc <> 0 -> hr_method r = bs "POST" -> followed w hc again r [] r tr a ->
  exists o, runs (andthen (http_do w hc again r) (outcome_net keep)) tr o /\ returned keep a o.
Proof.
  intros Hl Hm H. destruct (outcome_exists keep a) as (o & Ho & Hr). exists o. split; [|exact Hr].
  rewrite <- (app_nil_r tr). eapply runs_andthen_make; [|exact Ho]. unfold http_do. apply do_http_followed; [left; exact Hm|reflexivity|exact Hl|exact H].
Qed.

Lemma andthen_same A B (p : net A) (f g : A -> net B) : (forall a, f a = g a) -> forall tr x, runs (andthen p f) tr x -> runs (andthen p g) tr x.
Proof. intros E tr x H. apply runs_andthen in H as (t1 & a & t2 & H1 & H2 & ->). eapply runs_andthen_make; [exact H1|]. rewrite <- E. exact H2. Qed.

Lemma keep_same a : match a with
  | None => Done (None, Some network_error)
  | Some rp => Done (Some rp, if Z.eqb (rp_code rp) 200 then None else Some (status_error rp))
  end = outcome_net true a.
Proof. destruct a; reflexivity. Qed.

Lemma drop_same a : match a with
  | None => Done (None, Some network_error)
  | Some rp => if Z.eqb (rp_code rp) 200 then Done (Some rp, None) else Done (None, Some (status_error rp))
  end = outcome_net false a.
Proof. destruct a; reflexivity. Qed.

Lemma raw_history w c u body again tr o hc : http_client_of c hc -> hc_limit hc <> 0 -> https u ->
  runs (raw_request w c u body again) tr o -> tr <> [] ->
  exists r a, first_request c u body r /\ followed w hc again r [] r tr a /\ returned true a o.
Proof.
  intros Hc Hl Hu H Hne. apply has_prefix_https in Hu.
  destruct Hc as [bc hc E|bc E|bc]; cbn [raw_request] in H; unfold basic_raw, vanguard_raw in H; rewrite Hu in H; cbn [negb] in H;
    (destruct (parse_url u); [|apply runs_done_inv in H as [-> _]; contradiction]); cbv zeta in H; try rewrite E in H;
    (apply (andthen_same _ _ _ _ _ keep_same) in H; apply http_history in H as (a & H & Hr); [|exact Hl|reflexivity]);
    eexists _, a; (split; [|split; [exact H|exact Hr]]); constructor; apply agent_header_iff; reflexivity.
Qed.

Lemma raw_possible w c u body again tr a r hc : http_client_of c hc -> hc_limit hc <> 0 -> https u -> parse_url u <> None ->
  first_request c u body r -> followed w hc again r [] r tr a ->
  exists o, runs (raw_request w c u body again) tr o /\ returned true a o.
Proof.
  intros Hc Hl Hu Hp Hf H. apply has_prefix_https in Hu.
  destruct (parse_url u) as [x|] eqn:Ex; [|contradiction].
  destruct Hf as [bc u body l Hg|bc u body l Hg]; apply agent_header_iff in Hg as ->;
    match type of H with followed _ _ _ ?q _ _ _ _ => destruct (http_possible w hc again q true tr a Hl eq_refl H) as (o & Ho & Hr) end; exists o; (split; [|exact Hr]); cbn [raw_request];
    unfold basic_raw, vanguard_raw; rewrite Hu, Ex; cbn [negb]; cbv zeta; inversion Hc; subst;
    try match goal with H : bc_HTTPClient _ = _ |- _ => rewrite H end;
    exact (andthen_same _ _ _ _ _ (fun a => eq_sym (keep_same a)) _ _ Ho).
Qed.

(** ** Vanguard's second request *)

Lemma cookies_history w u body again cookies tr o : https u -> runs (cookies_raw w u body again cookies) tr o -> tr <> [] ->
  exists a, let r := post u [(bs "Content-Type", bs "application/x-ofx")] cookies body in
    followed w default_client again r [] r tr a /\ returned false a o.
Proof.
  intros Hu H Hne. apply has_prefix_https in Hu. unfold cookies_raw in H. rewrite Hu in H. cbn [negb] in H.
  destruct (parse_url u); [|apply runs_done_inv in H as [-> _]; contradiction].
  apply (andthen_same _ _ _ _ _ drop_same) in H. apply http_history in H as (a & H & Hr); [|discriminate|reflexivity]. exists a. auto.
Qed.

Lemma returned_response a o rp : returned true a o -> (fst o = Some rp <-> a = Some rp).
Proof.
  intros H. destruct H as [x E|x E|err]; cbn [fst]; split; intros H'; congruence.
Qed.

Lemma no_parse_http w c hc q tr o q' : http_client_of c hc -> hc_limit hc <> 0 -> https (rq_url q) ->
  runs (request_no_parse w c q) tr (o, q') -> tr <> [] ->
  exists b r tr1 a, request_marshal (set_client_fields (w_now w) c q) = Some (b, q') /\
    first_request c (rq_url q) b r /\ followed w hc true r [] r tr1 a /\
    (tr = tr1 /\ returned true a o /\ (forall bc rp, c = Vanguard bc -> a = Some rp -> ~ retried rp) \/
     exists bc rp tr2 a2, c = Vanguard bc /\ a = Some rp /\ retried rp /\ tr = tr1 ++ tr2 /\
       let r2 := post (rq_url q) [(bs "Content-Type", bs "application/x-ofx")] (rp_cookies rp) b in
       followed w default_client true r2 [] r2 tr2 a2 /\ returned false a2 o).
Proof.
  intros Hc Hl Hu H Hne.
  apply no_parse_runs in H as [(_ & -> & _)|(b & tr1 & o1 & Em & H1 & Hcase)]; [contradiction|].
  assert (Hne1 : tr1 <> []).
  { destruct Hcase as [(-> & _)|(bc & rp & tr2 & -> & Hf & _ & _ & -> & _)]; [exact Hne|].
    intros ->. cbn [raw_request] in H1. destruct o1 as [x err]. cbn [fst] in Hf. subst x.
    apply vanguard_raw_runs in H1 as (Hpr & _). apply proper_response in Hpr. discriminate. }
  destruct (raw_history _ _ _ _ _ _ _ _ Hc Hl Hu H1 Hne1) as (r & a & Hf & Ho & Hr).
  exists b, r, tr1, a. split; [exact Em|]. split; [exact Hf|]. split; [exact Ho|].
  destruct Hcase as [(-> & -> & Hn)|(bc & rp & tr2 & -> & Hf1 & Hlen & Hck & -> & H2)].
  - left. split; [reflexivity|]. split; [exact Hr|]. intros bc rp -> -> [H3 H4]. apply H4. apply (Hn bc rp eq_refl); [|exact H3].
    apply (returned_response _ _ _ Hr). reflexivity.
  - right. assert (Hne2 : tr2 <> []).
    { cbn [raw_request] in H1. destruct o1 as [x err]. cbn [fst] in Hf1. subst x. pose proof (vanguard_raw_sent _ _ _ _ _ _ _ _ H1) as [Hu' Hp].
      exact (cookies_raw_sends _ _ _ _ _ _ _ Hu' Hp H2). }
    destruct (cookies_history _ _ _ _ _ _ _ Hu H2 Hne2) as (a2 & Ho2 & Hr2).
    exists bc, rp, tr2, a2. split; [reflexivity|]. split; [apply (returned_response _ _ _ Hr), Hf1|]. split; [split; assumption|]. split; [reflexivity|]. cbv zeta. auto.
Qed.

Lemma discover_returned w bc u body again tr o : runs (raw_request w (Discover bc) u body again) tr o -> returned false (last_answer tr) o.
Proof.
  cbn [raw_request]. unfold discover_raw. destruct (has_prefix (bs "https://") u); cbn [negb].
  2:{ intros H. apply runs_done_inv in H as [-> ->]. apply re_failed. }
  intros H. apply (andthen_same _ _ _ _ _ drop_same) in H. apply runs_andthen in H as (tr1 & a & tr2 & H1 & H2 & ->).
  apply outcome_returned in H2 as [-> Hr]. rewrite app_nil_r. replace (last_answer tr1) with a; [exact Hr|].
  unfold discover_post in H1. destruct (parse_url u) as [x|]; [|apply runs_done_inv in H1 as [-> ->]; reflexivity]. cbv zeta in H1.
  apply runs_dial_inv in H1 as (ok & t & -> & H1). destruct ok; cbn [negb] in H1; [|apply runs_done_inv in H1 as [-> ->]; reflexivity].
  apply runs_write_inv in H1 as (ok1 & t2 & -> & H1). apply runs_write_inv in H1 as (ok2 & t3 & -> & H1).
  destruct ok2; cbn [negb] in H1; [|apply runs_done_inv in H1 as [-> ->]; reflexivity].
  apply runs_read_inv in H1 as (b & t4 & -> & H1). apply runs_done_inv in H1 as [-> ->]. reflexivity.
Qed.
