(** Proofs for C92: the bodies that stay open. *)
From Coq Require Import ZArith Lia Bool ZifyBool ZifyNat ZifyN.
From Verif Require Import GoStr Types Codec Document Wire Marshal Url Clients SpecClients ClientFacts Bodies SpecBodies.

Lemma lives_over A (a x : A) n o tr n' o' : lives (Over a) n o tr x n' o' -> tr = [] /\ x = a /\ n' = n /\ o' = o.
Proof. intros H. inversion H; subst. auto. Qed.

Lemma lives_receive A p (k : option http_response -> life A) n o tr x n' o' : lives (Receive p k) n o tr x n' o' ->
  exists a tr1 tr2, runs p tr1 a /\ tr = tr1 ++ tr2 /\
    lives (k a) (match a with Some _ => S n | None => n end) (match a with Some rp => o ++ [(n, rp)] | None => o end) tr2 x n' o'.
Proof.
  intros H. inversion H; subst.
  - exists None. eauto.
  - exists (Some rp). eauto.
Qed.

Lemma lives_receive_make A p (k : option http_response -> life A) n o a tr1 tr2 x n' o' : runs p tr1 a ->
  lives (k a) (match a with Some _ => S n | None => n end) (match a with Some rp => o ++ [(n, rp)] | None => o end) tr2 x n' o' ->
  lives (Receive p k) n o (tr1 ++ tr2) x n' o'.
Proof. intros H1 H2. destruct a; [eapply li_answer|eapply li_nothing]; eassumption. Qed.

Lemma lives_close A m (k : life A) n o tr x n' o' : lives (Close m k) n o tr x n' o' ->
  lives k n (filter (fun b => negb (Nat.eqb (fst b) m)) o) tr x n' o'.
Proof. intros H. inversion H; subst. assumption. Qed.

Lemma lives_then A B (p : life A) (f : A -> life B) : forall n o tr x n' o', lives (then_life p f) n o tr x n' o' ->
  exists tr1 a n1 o1 tr2, lives p n o tr1 a n1 o1 /\ lives (f a) n1 o1 tr2 x n' o' /\ tr = tr1 ++ tr2.
Proof.
  induction p as [a|p k IH|m k IH]; intros n o tr x n' o' H; cbn [then_life] in H.
  - exists [], a, n, o, tr. split; [constructor|]. auto.
  - apply lives_receive in H as (a & t1 & t2 & Hp & -> & H). apply IH in H as (t3 & y & n1 & o1 & t4 & H1 & H2 & ->).
    exists (t1 ++ t3), y, n1, o1, t4. split; [eapply lives_receive_make; eassumption|]. split; [exact H2|]. apply app_assoc.
  - apply lives_close in H. apply IH in H as (t3 & y & n1 & o1 & t4 & H1 & H2 & ->).
    exists t3, y, n1, o1, t4. split; [apply li_close; exact H1|]. auto.
Qed.

Lemma lives_then_make A B (p : life A) (f : A -> life B) n o tr1 a n1 o1 tr2 x n' o' :
  lives p n o tr1 a n1 o1 -> lives (f a) n1 o1 tr2 x n' o' -> lives (then_life p f) n o (tr1 ++ tr2) x n' o'.
Proof.
  intros H H2. induction H; cbn [then_life app].
  - exact H2.
  - rewrite <- app_assoc. apply li_nothing; auto.
  - rewrite <- app_assoc. eapply li_answer; eauto.
  - apply li_close. auto.
Qed.

(** The answer that is handed over is the last one. *)
Lemma http_do_last w hc rw r tr rp : runs (http_do w hc rw r) tr (Some rp) -> last_answer tr = Some rp.
Proof.
  intros H. unfold http_do in H. destruct (do_http_round _ _ _ _ _ _ _ _ _ H) as [(_ & _ & E)|(_ & b & Hr & [E|[E _]])]; try discriminate E.
  subst b. exact (round_last_answer _ _ _ _ _ Hr).
Qed.

Lemma discover_post_last u body tr rp : runs (discover_post u body) tr (Some rp) -> last_answer tr = Some rp.
Proof.
  unfold discover_post. destruct (parse_url u) as [x|]; [|intros H; apply runs_done_inv in H as [_ H]; discriminate].
  cbv zeta. intros H. apply runs_dial_inv in H as (ok & t1 & -> & H). destruct ok; cbn [negb] in H; [|apply runs_done_inv in H as [_ H]; discriminate].
  apply runs_write_inv in H as (ok1 & t2 & -> & H). apply runs_write_inv in H as (ok2 & t3 & -> & H).
  destruct ok2; cbn [negb] in H; [|apply runs_done_inv in H as [_ H]; discriminate].
  apply runs_read_inv in H as (b & t4 & -> & H). apply runs_done_inv in H as [-> <-]. reflexivity.
Qed.

Definition without_number (h : held) : outcome := (option_map snd (fst h), snd h).

(** What a call of RawRequest, or of the repeated request, leaves open. *)
Definition raw_leaves (keep : bool) (n : nat) (o : bodies) (tr : list event) (h : held) (n' : nat) (o' : bodies) : Prop :=
  (fst h = None /\ snd h <> None /\ n' = n /\ o' = o) \/
  exists rp, last_answer tr = Some rp /\ n' = S n /\ o' = o ++ [(n, rp)] /\
    (snd h = None <-> rp_code rp = 200%Z) /\ (rp_code rp = 200%Z \/ keep = true -> fst h = Some (n, rp)) /\ (fst h = None \/ fst h = Some (n, rp)).

Lemma receive_raw (keep : bool) (p : net (option http_response)) (k : option http_response -> life held) (k' : option http_response -> net outcome) n o tr h n' o' :
  (forall tr rp, runs p tr (Some rp) -> last_answer tr = Some rp) ->
  (forall a, exists x, k a = Over x /\ k' a = Done (without_number x) /\
     match a with
     | None => x = (None, Some network_error)
     | Some rp => x = if Z.eqb (rp_code rp) 200 then (Some (n, rp), None) else (if keep then Some (n, rp) else None, Some (status_error rp))
     end) ->
  lives (Receive p k) n o tr h n' o' -> runs (andthen p k') tr (without_number h) /\ raw_leaves keep n o tr h n' o'.
Proof.
  intros Hlast Hk H. apply lives_receive in H as (a & t1 & t2 & Hp & -> & H). destruct (Hk a) as (x & E & E' & Ex). rewrite E in H.
  apply lives_over in H as (-> & -> & -> & ->). rewrite app_nil_r. split.
  - rewrite <- (app_nil_r t1). eapply runs_andthen_make; [exact Hp|]. rewrite E'. constructor.
  - destruct a as [rp|]; [right|left; subst x; cbn [fst snd]; split; [reflexivity|split; [discriminate|auto]]].
    exists rp. split; [apply Hlast; exact Hp|]. split; [reflexivity|]. split; [reflexivity|]. rewrite Ex. destruct (Z.eqb_spec (rp_code rp) 200) as [Hc|Hc]; cbn [fst snd].
    + tauto.
    + split; [split; [discriminate|intros; contradiction]|]. destruct keep; split; auto. intros [|]; [contradiction|discriminate].
Qed.

Lemma over_raw keep (x : held) n o tr h n' o' : fst x = None -> snd x <> None -> lives (Over x) n o tr h n' o' ->
  runs (Done (without_number x)) tr (without_number h) /\ raw_leaves keep n o tr h n' o'.
Proof.
  intros Hx Hs H. apply lives_over in H as (-> & -> & -> & ->). split; [constructor|]. left. auto.
Qed.

Lemma raw_life_runs w c u body rw n o tr h n' o' : lives (raw_life w c u body rw n) n o tr h n' o' ->
  runs (raw_request w c u body rw) tr (without_number h) /\ raw_leaves (match c with Discover _ => false | _ => true end) n o tr h n' o'.
Proof.
  destruct c as [bc|bc|bc]; cbn [raw_life raw_request]; unfold basic_life, basic_raw, vanguard_life, vanguard_raw, discover_life, discover_raw.
  - destruct (negb _); [intros H; apply (over_raw true) in H; [exact H|reflexivity|discriminate]|].
    destruct (parse_url u); [|intros H; apply (over_raw true) in H; [exact H|reflexivity|discriminate]].
    cbv zeta. apply receive_raw; [intros; eapply http_do_last; eassumption|].
    intros [rp|]; eexists; (split; [reflexivity|]); (split; [reflexivity|]); [|reflexivity]. destruct (Z.eqb _ _); reflexivity.
  - destruct (negb _); [intros H; apply (over_raw true) in H; [exact H|reflexivity|discriminate]|].
    destruct (parse_url u); [|intros H; apply (over_raw true) in H; [exact H|reflexivity|discriminate]].
    apply receive_raw; [intros; eapply http_do_last; eassumption|].
    intros [rp|]; eexists; (split; [reflexivity|]); (split; [reflexivity|]); [|reflexivity]. destruct (Z.eqb _ _); reflexivity.
  - destruct (negb _); [intros H; apply (over_raw false) in H; [exact H|reflexivity|discriminate]|].
    apply receive_raw; [intros; eapply discover_post_last; eassumption|].
    intros [rp|]; [destruct (Z.eqb _ _)|]; eexists; (split; [reflexivity|]); (split; [reflexivity|]); reflexivity.
Qed.

Lemma cookies_life_runs w u body rw cookies n o tr h n' o' : lives (cookies_life w u body rw cookies n) n o tr h n' o' ->
  runs (cookies_raw w u body rw cookies) tr (without_number h) /\ raw_leaves false n o tr h n' o'.
Proof.
  unfold cookies_life, cookies_raw.
  destruct (negb _); [intros H; apply (over_raw false) in H; [exact H|reflexivity|discriminate]|].
  destruct (parse_url u); [|intros H; apply (over_raw false) in H; [exact H|reflexivity|discriminate]].
  apply receive_raw; [intros; eapply http_do_last; eassumption|].
  intros [rp|]; [destruct (Z.eqb _ _)|]; eexists; (split; [reflexivity|]); (split; [reflexivity|]); reflexivity.
Qed.

(** The same conversations are possible. *)
Lemma receive_raw_make (p : net (option http_response)) (k : option http_response -> life held) (k' : option http_response -> net outcome) n o tr x :
  (forall a, exists x, k a = Over x /\ k' a = Done (without_number x)) -> runs (andthen p k') tr x ->
  exists h n' o', lives (Receive p k) n o tr h n' o' /\ without_number h = x.
Proof.
  intros Hk H. apply runs_andthen in H as (t1 & a & t2 & H1 & H2 & ->). destruct (Hk a) as (y & E & E'). rewrite E' in H2.
  apply runs_done_inv in H2 as [-> ->]. exists y. do 2 eexists. split; [|reflexivity]. eapply lives_receive_make; [exact H1|]. rewrite E. constructor.
Qed.

Lemma raw_life_make w c u body rw n o tr x : runs (raw_request w c u body rw) tr x ->
  exists h n' o', lives (raw_life w c u body rw n) n o tr h n' o' /\ without_number h = x.
Proof.
  assert (Hover : forall y : held, runs (Done (without_number y)) tr x -> exists h n' o', lives (Over y) n o tr h n' o' /\ without_number h = x).
  { intros y H. apply runs_done_inv in H as [-> ->]. exists y, n, o. split; [constructor|reflexivity]. }
  destruct c as [bc|bc|bc]; cbn [raw_life raw_request]; unfold basic_life, basic_raw, vanguard_life, vanguard_raw, discover_life, discover_raw.
  - destruct (negb _); [apply (Hover (None, _))|]. destruct (parse_url u); [|apply (Hover (None, _))]. cbv zeta.
    apply receive_raw_make. intros [rp|]; eexists; (split; [reflexivity|]); reflexivity.
  - destruct (negb _); [apply (Hover (None, _))|]. destruct (parse_url u); [|apply (Hover (None, _))].
    apply receive_raw_make. intros [rp|]; eexists; (split; [reflexivity|]); reflexivity.
  - destruct (negb _); [apply (Hover (None, _))|].
    apply receive_raw_make. intros [rp|]; [destruct (Z.eqb _ _)|]; eexists; (split; [reflexivity|]); reflexivity.
Qed.

Lemma cookies_life_make w u body rw cookies n o tr x : runs (cookies_raw w u body rw cookies) tr x ->
  exists h n' o', lives (cookies_life w u body rw cookies n) n o tr h n' o' /\ without_number h = x.
Proof.
  assert (Hover : forall y : held, runs (Done (without_number y)) tr x -> exists h n' o', lives (Over y) n o tr h n' o' /\ without_number h = x).
  { intros y H. apply runs_done_inv in H as [-> ->]. exists y, n, o. split; [constructor|reflexivity]. }
  unfold cookies_life, cookies_raw. destruct (negb _); [apply (Hover (None, _))|]. destruct (parse_url u); [|apply (Hover (None, _))].
  apply receive_raw_make. intros [rp|]; [destruct (Z.eqb _ _)|]; eexists; (split; [reflexivity|]); reflexivity.
Qed.

(** RequestNoParse. *)
Definition repeated (c : client) (rp : http_response) : Prop :=
  (exists bc, c = Vanguard bc) /\ (rp_length rp <= 0)%Z /\ rp_cookies rp <> [].

Definition leaves (c : client) (tr : list event) (h : held) (o : bodies) : Prop :=
  (fst h = None /\ snd h <> None /\ o = []) \/
  (exists rp, last_answer tr = Some rp /\ o = [(0, rp)] /\ (snd h = None <-> rp_code rp = 200%Z) /\
     (fst h = None /\ rp_code rp <> 200%Z \/ fst h = Some (0, rp))) \/
  (exists first, repeated c first /\ fst h = None /\ snd h <> None /\ o = [(0, first)]) \/
  (exists first rp, repeated c first /\ last_answer tr = Some rp /\ o = [(0, first); (1, rp)] /\ (snd h = None <-> rp_code rp = 200%Z) /\
     (fst h = None /\ rp_code rp <> 200%Z \/ fst h = Some (1, rp))).

Lemma raw_leaves_one c keep tr h n' o' : raw_leaves keep 0 [] tr h n' o' -> leaves c tr h o'.
Proof.
  intros [(H1 & H2 & _ & ->)|(rp & Hl & _ & -> & Hs & Hf & Hor)]; [left; auto|right; left]. exists rp. cbn [app].
  split; [exact Hl|]. split; [reflexivity|]. split; [exact Hs|]. destruct Hor as [E|E]; [left|right; exact E].
  split; [exact E|]. intros Hc. rewrite (Hf (or_introl Hc)) in E. discriminate.
Qed.

Lemma no_parse_life_runs w c q tr h q' n' o' : lives (no_parse_life w c q) 0 [] tr (h, q') n' o' ->
  runs (request_no_parse w c q) tr (without_number h, q') /\ leaves c tr h o'.
Proof.
  unfold no_parse_life, request_no_parse. cbv zeta. set (q1 := set_client_fields (w_now w) c q).
  destruct (request_marshal q1) as [[b q2]|] eqn:E.
  2:{ intros H. apply lives_over in H as (-> & E2 & -> & ->). injection E2 as -> ->. split; [constructor|]. left. split; [reflexivity|]. split; [discriminate|reflexivity]. }
  intros H. apply lives_then in H as (t1 & h1 & n1 & o1 & t2 & H1 & H2 & ->). apply raw_life_runs in H1 as [R1 L1].
  assert (Hplain : lives (Over (h1, q2)) n1 o1 t2 (h, q') n' o' ->
    runs (Done (without_number h1, q2)) t2 (without_number h, q') /\ leaves c (t1 ++ t2) h o').
  { intros H. apply lives_over in H as (-> & E2 & -> & ->). injection E2 as -> ->. split; [constructor|]. rewrite app_nil_r. exact (raw_leaves_one _ _ _ _ _ _ L1). }
  assert (Hgoal : runs (match c, fst (without_number h1) with
        | Vanguard _, Some rp =>
            if (rp_length rp <=? 0)%Z && negb (match rp_cookies rp with [] => true | _ => false end) then
              match request_marshal q2 with
              | None => Done ((None, Some (marshal_failure q2)), request_after q2)
              | Some (b', q3) => andthen (cookies_raw w (rq_url q3) b' true (rp_cookies rp)) (fun o' => Done (o', q3))
              end
            else Done (without_number h1, q2)
        | _, _ => Done (without_number h1, q2)
        end) t2 (without_number h, q') /\ leaves c (t1 ++ t2) h o').
  2:{ destruct Hgoal as [G1 G2]. split; [|exact G2]. eapply runs_andthen_make; [exact R1|exact G1]. }
  destruct c as [bc|bc|bc]; [apply Hplain; exact H2| |apply Hplain; exact H2].
  cbn [without_number fst]. destruct (fst h1) as [[m rp]|] eqn:Eh; cbn [option_map snd]; [|apply Hplain; exact H2].
  destruct ((rp_length rp <=? 0)%Z && negb (match rp_cookies rp with [] => true | _ => false end)) eqn:Ec; [|apply Hplain; exact H2].
  apply andb_true_iff in Ec as [Ec1 Ec2].
  assert (Hrep : repeated (Vanguard bc) rp) by (split; [eauto|split; [lia|destruct (rp_cookies rp); discriminate]]).
  assert (Ho : n1 = 1 /\ o1 = [(0, rp)]).
  { destruct L1 as [(X & _)|(rp' & _ & -> & -> & _ & _ & [X|X])]; rewrite Eh in X; try discriminate X. injection X as -> ->. auto. }
  destruct Ho as [-> ->]. destruct (request_marshal q2) as [[b' q3]|] eqn:E3.
  - apply lives_then in H2 as (t3 & h3 & n3 & o3 & t4 & H3 & H4 & ->). apply lives_over in H4 as (-> & E4 & -> & ->). injection E4 as -> ->.
    rewrite app_nil_r. apply cookies_life_runs in H3 as [R3 L3]. split.
    { rewrite <- (app_nil_r t3). eapply runs_andthen_make; [exact R3|constructor]. }
    destruct L3 as [(X1 & X2 & _ & ->)|(rp3 & Hl & _ & -> & Hs & Hf & Hor)].
    + right. right. left. exists rp. auto.
    + right. right. right. exists rp, rp3. split; [exact Hrep|]. assert (Hne : t3 <> []) by (intros ->; discriminate Hl).
      rewrite (last_answer_app _ _ Hne). split; [exact Hl|]. split; [reflexivity|]. split; [exact Hs|].
      destruct Hor as [E4|E4]; [left|right; exact E4]. split; [exact E4|]. intros Hc. rewrite (Hf (or_introl Hc)) in E4. discriminate.
  - apply lives_over in H2 as (-> & E4 & -> & ->). injection E4 as -> ->. split; [constructor|]. right. right. left. exists rp.
    split; [exact Hrep|]. split; [reflexivity|]. split; [discriminate|reflexivity].
Qed.

Lemma no_parse_life_make w c q tr x q' : runs (request_no_parse w c q) tr (x, q') ->
  exists h n' o', lives (no_parse_life w c q) 0 [] tr (h, q') n' o' /\ without_number h = x.
Proof.
  unfold no_parse_life, request_no_parse. cbv zeta. set (q1 := set_client_fields (w_now w) c q).
  destruct (request_marshal q1) as [[b q2]|] eqn:E.
  2:{ intros H. apply runs_done_inv in H as [-> H]. injection H as -> ->. eexists (None, _). do 2 eexists. split; [constructor|reflexivity]. }
  intros H. apply runs_andthen in H as (t1 & x1 & t2 & R1 & R2 & ->). apply (raw_life_make w c _ _ _ 0 []) in R1 as (h1 & n1 & o1 & H1 & <-).
  assert (Hrest : exists h n' o', lives (match c, fst h1 with
        | Vanguard _, Some (_, rp) =>
            if (rp_length rp <=? 0)%Z && negb (match rp_cookies rp with [] => true | _ => false end) then
              match request_marshal q2 with
              | None => Over ((None, Some (marshal_failure q2)), request_after q2)
              | Some (b', q3) => then_life (cookies_life w (rq_url q3) b' true (rp_cookies rp) 1) (fun o' => Over (o', q3))
              end
            else Over (h1, q2)
        | _, _ => Over (h1, q2)
        end) n1 o1 t2 (h, q') n' o' /\ without_number h = x).
  2:{ destruct Hrest as (h & n' & o' & H2 & Hx). exists h, n', o'. split; [|exact Hx]. eapply lives_then_make; eassumption. }
  assert (Hplain : runs (Done (without_number h1, q2)) t2 (x, q') -> exists h n' o', lives (Over (h1, q2)) n1 o1 t2 (h, q') n' o' /\ without_number h = x).
  { intros H. apply runs_done_inv in H as [-> H]. injection H as -> ->. exists h1, n1, o1. split; [constructor|reflexivity]. }
  apply raw_life_runs in H1 as [_ L1].
  destruct c as [bc|bc|bc]; [apply Hplain; exact R2| |apply Hplain; exact R2].
  cbn [without_number fst] in R2. destruct (fst h1) as [[m rp]|] eqn:Eh; cbn [option_map snd] in R2; [|apply Hplain; exact R2].
  destruct ((rp_length rp <=? 0)%Z && negb _); [|apply Hplain; exact R2].
  assert (n1 = 1) as -> by (destruct L1 as [(X & _)|(rp' & _ & -> & _)]; [rewrite Eh in X; discriminate X|reflexivity]).
  destruct (request_marshal q2) as [[b' q3]|].
  - apply runs_andthen in R2 as (t3 & x3 & t4 & R3 & R4 & ->). apply runs_done_inv in R4 as [-> R4]. injection R4 as -> ->.
    apply (cookies_life_make w _ _ _ _ 1 o1) in R3 as (h & n' & o' & H3 & <-). exists h, n', o'. split; [|reflexivity].
    eapply lives_then_make; [exact H3|constructor].
  - apply runs_done_inv in R2 as [-> R2]. injection R2 as -> ->. eexists (None, _). do 2 eexists. split; [constructor|reflexivity].
Qed.

(** Request. *)
Definition result_of (e : env) (h : outcome) : option Response * option goerr :=
  match h with
  | (_, Some err) => (None, Some err)
  | (None, None) => (None, None)
  | (Some rp, None) => match parse_response e (rp_body rp) with (_, Some err) => (None, Some err) | (r, None) => (r, None) end
  end.

Lemma client_request_make w e c q tr o q' : runs (request_no_parse w c q) tr (o, q') -> runs (client_request w e c q) tr (result_of e o, q').
Proof.
  intros H. unfold client_request. rewrite <- (app_nil_r tr). eapply runs_andthen_make; [exact H|]. cbn [fst snd]. constructor.
Qed.

Lemma request_life_split w e c q tr x q' n' o' : lives (request_life w e c q) 0 [] tr (x, q') n' o' ->
  exists h o1, lives (no_parse_life w c q) 0 [] tr (h, q') n' o1 /\ x = result_of e (without_number h) /\
    o' = match h with (Some (n, _), None) => filter (fun b => negb (Nat.eqb (fst b) n)) o1 | _ => o1 end.
Proof.
  unfold request_life. intros H. apply lives_then in H as (t1 & [h q2] & n1 & o1 & t2 & H1 & H2 & ->). cbn [fst snd] in H2.
  destruct h as [[[n rp]|] [err|]]; cbn [result_of without_number fst snd option_map]; cbv zeta in H2; try apply lives_close in H2;
    apply lives_over in H2 as (-> & E & -> & ->); injection E as -> ->; rewrite app_nil_r; (do 2 eexists; split; [exact H1|]; split; reflexivity).
Qed.

Lemma request_life_runs w e c q tr x q' n' o' : lives (request_life w e c q) 0 [] tr (x, q') n' o' -> runs (client_request w e c q) tr (x, q').
Proof.
  intros H. apply request_life_split in H as (h & o1 & H & -> & _). apply no_parse_life_runs in H as [H _]. apply client_request_make. exact H.
Qed.

Lemma request_life_make w e c q tr x q' : runs (client_request w e c q) tr (x, q') ->
  exists n' o', lives (request_life w e c q) 0 [] tr (x, q') n' o'.
Proof.
  intros H. destruct (client_request_runs _ _ _ _ _ _ _ H) as (o & R & ->). apply no_parse_life_make in R as (h & n' & o' & R & <-).
  unfold request_life. destruct h as [[[n rp]|] [err|]] eqn:Eh; (do 2 eexists); rewrite <- (app_nil_r tr); (eapply lives_then_make; [exact R|]);
    cbn [fst snd]; cbv zeta; try apply li_close; constructor.
Qed.

(** What Request leaves open: bodies of errors, and the first answer of the Vanguard
    client if it asks again. *)
Lemma request_left_open w e c q tr x q' n' o' : lives (request_life w e c q) 0 [] tr (x, q') n' o' ->
  forall n rp, In (n, rp) o' -> last_answer tr = Some rp /\ rp_code rp <> 200%Z \/ n = 0 /\ repeated c rp.
Proof.
  intros H. apply request_life_split in H as (h & o1 & H & _ & ->). apply no_parse_life_runs in H as [_ L].
  intros n rp Hin. destruct L as [(Hf & Hs & ->)|[(rp' & Hl & -> & Hs & Hf)|[(first & Hr & Hf & Hs & ->)|(first & rp' & Hr & Hl & -> & Hs & Hf)]]].
  - exfalso. destruct h as [[[? ?]|] [?|]]; exact Hin.
  - left. destruct Hf as [[Hf Hc]|Hf].
    + destruct h as [hf hs]. cbn [fst] in Hf. subst hf. destruct Hin as [E|[]]. injection E as <- <-. auto.
    + destruct h as [hf [err|]]; cbn [fst snd] in *; subst hf; [|contradiction].
      destruct Hin as [E|[]]. injection E as <- <-. split; [exact Hl|]. intros Hc. apply Hs in Hc. discriminate.
  - right. destruct h as [hf hs]. cbn [fst] in Hf. subst hf. destruct Hin as [E|[]]. injection E as <- <-. auto.
  - destruct Hf as [[Hf Hc]|Hf].
    + destruct h as [hf hs]. cbn [fst] in Hf. subst hf. destruct Hin as [E|[E|[]]]; injection E as <- <-; auto.
    + destruct h as [hf [err|]]; cbn [fst snd] in *; subst hf.
      * destruct Hin as [E|[E|[]]]; injection E as <- <-; auto. left. split; [exact Hl|]. intros Hc. apply Hs in Hc. discriminate.
      * cbn [filter fst Nat.eqb negb] in Hin. destruct Hin as [E|[]]; injection E as <- <-; auto.
Qed.

Lemma request_read w e c q tr r err q' n' o' : lives (request_life w e c q) 0 [] tr ((Some r, err), q') n' o' ->
  forall n rp, In (n, rp) o' -> n = 0 /\ repeated c rp.
Proof.
  intros H n rp Hin. destruct (request_left_open _ _ _ _ _ _ _ _ _ H n rp Hin) as [[Hl Hc]|Hr]; [exfalso|exact Hr].
  apply request_life_split in H as (h & o1 & H & Ex & ->). apply no_parse_life_runs in H as [_ L].
  assert (Hs : snd h = None) by (destruct h as [[?|] [?|]]; [discriminate Ex|reflexivity|discriminate Ex|reflexivity]).
  destruct L as [(_ & X & _)|[(rp' & Hl' & _ & [X _] & _)|[(first & _ & _ & X & _)|(first & rp' & _ & Hl' & _ & [X _] & _)]]]; try contradiction;
    rewrite Hl' in Hl; injection Hl as ->; auto.
Qed.

(** A body that was read as a document, with or without success, is closed. *)
Lemma request_closed w e c q tr x q' n' o' rp : lives (request_life w e c q) 0 [] tr (x, q') n' o' ->
  last_answer tr = Some rp -> rp_code rp = 200%Z -> (forall bc, c <> Vanguard bc) -> o' = [].
Proof.
  intros H Hl Hc Hv. destruct o' as [|[n rp'] o']; [reflexivity|exfalso].
  destruct (request_left_open _ _ _ _ _ _ _ _ _ H n rp' (or_introl eq_refl)) as [[Hl' Hc']|[_ [[bc Hr] _]]].
  - rewrite Hl in Hl'. injection Hl' as <-. contradiction.
  - exact (Hv bc Hr).
Qed.

Lemma no_parse_left_open w c q tr h q' n' o' : lives (no_parse_life w c q) 0 [] tr (h, q') n' o' ->
  (forall b, fst h = Some b -> In b o') /\
  forall n rp, In (n, rp) o' -> fst h = Some (n, rp) \/ fst h = None /\ last_answer tr = Some rp /\ rp_code rp <> 200%Z \/ n = 0 /\ repeated c rp.
Proof.
  intros H. apply no_parse_life_runs in H as [_ L].
  destruct L as [(Hf & Hs & ->)|[(rp' & Hl & -> & Hs & Hf)|[(first & Hr & Hf & Hs & ->)|(first & rp' & Hr & Hl & -> & Hs & Hf)]]].
  - split; [intros b E; rewrite Hf in E; discriminate|intros n rp []].
  - split.
    + intros b E. destruct Hf as [[Hf _]|Hf]; rewrite Hf in E; [discriminate|]. injection E as <-. left. reflexivity.
    + intros n rp [E|[]]. injection E as <- <-. destruct Hf as [[Hf Hc]|Hf]; auto.
  - split; [intros b E; rewrite Hf in E; discriminate|]. intros n rp [E|[]]. injection E as <- <-. auto.
  - split.
    + intros b E. destruct Hf as [[Hf _]|Hf]; rewrite Hf in E; [discriminate|]. injection E as <-. right. left. reflexivity.
    + intros n rp [E|[E|[]]]; injection E as <- <-; [auto|]. destruct Hf as [[Hf Hc]|Hf]; auto.
Qed.

(** The basic client hands every body over. *)
Lemma no_parse_basic w bc q tr h q' n' o' : lives (no_parse_life w (Basic bc) q) 0 [] tr (h, q') n' o' ->
  o' = match fst h with Some b => [b] | None => [] end.
Proof.
  unfold no_parse_life. cbv zeta. set (q1 := set_client_fields _ _ q).
  destruct (request_marshal q1) as [[b q2]|].
  2:{ intros H. apply lives_over in H as (_ & E & _ & ->). injection E as -> _. reflexivity. }
  intros H. apply lives_then in H as (t1 & h1 & n1 & o1 & t2 & H1 & H2 & _). apply lives_over in H2 as (_ & E & _ & ->). injection E as -> _.
  apply raw_life_runs in H1 as [_ [(-> & _ & _ & ->)|(rp & _ & _ & -> & _ & Hf & _)]]; [reflexivity|]. rewrite (Hf (or_intror eq_refl)). reflexivity.
Qed.

Lemma raw_left_open w c u body rw tr h n' o' : lives (raw_life w c u body rw 0) 0 [] tr h n' o' ->
  (forall b, fst h = Some b -> In b o') /\
  forall n rp, In (n, rp) o' -> fst h = Some (n, rp) \/ (exists bc, c = Discover bc) /\ last_answer tr = Some rp /\ rp_code rp <> 200%Z.
Proof.
  intros H. apply raw_life_runs in H as [_ [(Hf & _ & _ & ->)|(rp & Hl & _ & -> & _ & Hf & Hor)]].
  - split; [intros b E; rewrite Hf in E; discriminate|intros n rp []].
  - split.
    + intros b E. destruct Hor as [X|X]; rewrite X in E; [discriminate|]. injection E as <-. left. reflexivity.
    + intros n rp' [E|[]]. injection E as <- <-. destruct (Z.eq_dec (rp_code rp) 200) as [Hc|Hc]; [left; auto|].
      destruct c as [bc|bc|bc]; [left; auto|left; auto|]. right. split; [eauto|auto].
Qed.

(** To give examples: the replies for each answer. *)
Fixpoint drive_life {A} (p : life A) (n : nat) (o : bodies) (l : list (list reply)) : option (list event * (A * (nat * bodies))) :=
  match p with
  | Over a => Some ([], (a, (n, o)))
  | Receive p k =>
      match l with
      | r :: l' => match drive p r with
                   | Some (tr, None) => option_map (fun x => (tr ++ fst x, snd x)) (drive_life (k None) n o l')
                   | Some (tr, Some rp) => option_map (fun x => (tr ++ fst x, snd x)) (drive_life (k (Some rp)) (S n) (o ++ [(n, rp)]) l')
                   | None => None
                   end
      | [] => None
      end
  | Close m k => drive_life k n (filter (fun b => negb (Nat.eqb (fst b) m)) o) l
  end.

Lemma drive_lives A (p : life A) : forall n o l tr x n' o', drive_life p n o l = Some (tr, (x, (n', o'))) -> lives p n o tr x n' o'.
Proof.
  induction p as [a|p k IH|m k IH]; intros n o l tr x n' o' H; cbn [drive_life] in H.
  - injection H as <- <- <- <-. constructor.
  - destruct l as [|r l]; [discriminate|]. destruct (drive p r) as [[t1 [rp|]]|] eqn:E; [| |discriminate]; apply drive_runs in E.
    + destruct (drive_life (k (Some rp)) _ _ l) as [[t2 [y [n1 o1]]]|] eqn:E2; [|discriminate]. injection H as <- <- <- <-.
      eapply li_answer; [exact E|]. eapply IH, E2.
    + destruct (drive_life (k None) _ _ l) as [[t2 [y [n1 o1]]]|] eqn:E2; [|discriminate]. injection H as <- <- <- <-.
      eapply li_nothing; [exact E|]. eapply IH, E2.
  - apply li_close. eapply IH, H.
Qed.

Lemma drive_life_case A (p : life A) l (P : list event -> A -> bodies -> bool) :
  match drive_life p 0 [] l with Some (tr, (x, (_, o))) => P tr x o | None => false end = true ->
  exists tr x n o, lives p 0 [] tr x n o /\ P tr x o = true.
Proof.
  destruct (drive_life p 0 [] l) as [[tr [x [n o]]]|] eqn:E; [|discriminate]. intros H. exists tr, x, n, o. split; [eapply drive_lives, E|exact H].
Qed.
