(** Facts about exchanges: what the server computes is what the client returns. *)
From Coq Require Import QArith Bool List Lia.
From Verif Require Import GoStr GoTime Types Enums EnumTables Records Common Messages Codec Schema Document SpecDocument
  DocumentFacts SetsFacts FilingFacts SpecXml SpecWire Xml Headers SpecHeader Wire WireFacts Url Clients SpecClients ClientFacts
  SpecReading RequestReading SpecExchange.
Close Scope Q_scope.
Open Scope list_scope.

Lemma marshalled_valid r s : response_marshal r = Some s -> response_valid r = None.
Proof.
  unfold response_marshal. intros H. apply response_valid_iff.
  assert (T : some (response_tree r)) by (intros E; rewrite E in H; discriminate H).
  apply response_tree_iff in T as [T1 T2]. split; [exact T1|].
  intros set ms m Hs Hm. destruct (T2 set ms m Hs Hm) as (_ & A & _). exact A.
Qed.

(** Everything a client sends is the document, or empty. *)
Lemma sent_bytes w c q tr o q' b q1 : runs (request_no_parse w c q) tr (o, q') ->
  request_marshal (set_client_fields (w_now w) c q) = Some (b, q1) ->
  q' = q1 /\
  (forall r a, In (EHttp r a) tr -> hr_body r = [] \/ hr_body r = b) /\
  (forall l h ok d ok' l', tr = l ++ EWrite h ok :: EWrite d ok' :: l' -> d = b).
Proof.
  intros H Hm. apply no_parse_runs in H as [(E & _) | (b' & tr1 & o1 & E & H1 & Hc)]; [congruence|].
  rewrite Hm in E. injection E as <- <-. split; [reflexivity|].
  assert (R : (forall r a, In (EHttp r a) tr1 -> hr_body r = [] \/ hr_body r = b) /\
              (forall l h ok d ok' l', tr1 = l ++ EWrite h ok :: EWrite d ok' :: l' -> d = b)).
  { apply raw_request_runs in H1 as [_ [-> | (_ & [(r & a & Hp & Hr) | (bc & x & rest & _ & _ & -> & Hc')])]].
    - split; [intros r a []|]. intros [|? ?] h ok d ok' l' E; discriminate.
    - split.
      + intros r' a' Hi. destruct Hp as (_ & _ & _ & Hb & _). exact (round_body _ _ _ _ _ _ _ Hr Hb Hi).
      + intros l h ok d ok' l' E. exfalso.
        assert (N : forall x, In x tr1 -> exists r' a', x = EHttp r' a').
        { clear - Hr. induction Hr as [r a|r rp r' tr a _ H IH]; intros y [<- | Hy]; eauto. destruct Hy. }
        destruct (N (EWrite h ok)) as (r' & a' & F); [|discriminate F].
        rewrite E. apply in_or_app. right. left. reflexivity.
    - destruct Hc' as [-> | [[ok ->] | (ok & a & ->)]]; (split; [intros r a' Hi; cbn in Hi; intuition discriminate|]);
        intros [|y1 [|y2 [|y3 [|y4 l]]]] h ok' d ok'' l' E; cbn [app] in E; try discriminate E;
        try (injection E; intros; subst; try reflexivity; try discriminate);
        try (destruct l; discriminate). }
  destruct Hc as [(-> & _ & _) | (bc & rp & tr2 & _ & _ & _ & _ & -> & H2)]; [exact R|].
  apply cookies_raw_runs in H2 as (_ & _ & [-> | (_ & r2 & a2 & Hp & Hr)]); [rewrite app_nil_r; exact R|].
  split.
  - intros r a Hi. apply in_app_or in Hi as [Hi | Hi]; [exact (proj1 R r a Hi)|].
    destruct Hp as (_ & _ & _ & Hb & _). exact (round_body _ _ _ _ _ _ _ Hr Hb Hi).
  - intros l h ok d ok' l' E.
    assert (N : forall x, In x tr2 -> exists r' a', x = EHttp r' a').
    { clear - Hr. induction Hr as [r a|r rp r' tr a _ H IH]; intros y [<- | Hy]; eauto. destruct Hy. }
    assert (K : forall (tr1 l : list event), tr1 ++ tr2 = l ++ EWrite h ok :: EWrite d ok' :: l' ->
      exists l1, tr1 = l ++ EWrite h ok :: EWrite d ok' :: l1).
    { clear - N. induction tr1 as [|y tr1 IH]; intros l E; cbn [app] in E.
      - destruct (N (EWrite h ok)) as (r' & a' & F); [|discriminate F]. rewrite E. apply in_or_app. right. left. reflexivity.
      - destruct l as [|z l]; cbn [app] in E.
        + injection E as -> E. destruct tr1 as [|y2 tr1]; cbn [app] in E.
          * destruct (N (EWrite d ok')) as (r' & a' & F); [|discriminate F]. rewrite E. left. reflexivity.
          * injection E as -> E. exists tr1. reflexivity.
        + injection E as -> E. destruct (IH l E) as (l1 & ->). exists l1. reflexivity. }
    destruct (K tr1 l E) as (l1 & E1). exact (proj2 R _ _ _ _ _ _ E1).
Qed.

Lemma last_http l r a : last_answer (l ++ [EHttp r a]) = a.
Proof. rewrite last_answer_app by discriminate. reflexivity. Qed.

Lemma last_read l h ok b ok' a : last_answer (l ++ [EWrite h ok; EWrite b ok'; ERead a]) = a.
Proof. rewrite last_answer_app by discriminate. reflexivity. Qed.

Lemma exchange w e c q b q1 f tr r err q' :
  let r0 := f (rq_signon q1) (rq_slots q1) in
  request_marshal (set_client_fields (w_now w) c q) = Some (b, q1) ->
  request_clean (set_client_fields (w_now w) c q) -> request_representable e q1 ->
  response_representable e r0 -> response_clean r0 -> known_version (rs_version r0) ->
  runs (client_request w e c q) tr ((r, err), q') -> answered_by e f tr ->
  r = Some r0 /\ err = None /\ q' = q1.
Proof.
  intros r0 Hm Hc Hr R1 R2 R3 H A.
  pose proof (request_result _ _ _ _ _ _ _ _ H) as Hres.
  destruct (client_request_runs _ _ _ _ _ _ _ H) as (o & Hn & _).
  destruct (sent_bytes _ _ _ _ _ _ _ _ Hn Hm) as (-> & HB & HW).
  assert (S : forall rp, serves e f b rp -> last_answer tr = Some rp ->
    rp_code rp = 200%Z /\ decode_response e (rp_body rp) = Some r0 /\ response_valid r0 = None).
  { intros rp [C S] L. split; [exact C|].
    assert (V : known_version (rq_version (set_client_fields (w_now w) c q))).
    { exact (client_version_known c). }
    destruct (request_sent_says e _ q1 b [] V Hc Hr Hm) as (n & E & Hs). rewrite app_nil_r in E.
    destruct (S (rq_signon q1) (rq_slots q1)) as (s & rest & M & ->).
    { exists (rq_version (set_client_fields (w_now w) c q)), n. auto. }
    split; [exact (response_round_trip e r0 s rest R1 R2 R3 M) | exact (marshalled_valid r0 s M)]. }
  assert (F : exists rp, last_answer tr = Some rp /\ rp_code rp = 200%Z /\
    decode_response e (rp_body rp) = Some r0 /\ response_valid r0 = None).
  { destruct A as [(l & rq & rp & E & Ne & Sv) | (l & h & ok & d & ok' & rp & E & Sv)].
    - exists rp. assert (L : last_answer tr = Some rp) by (rewrite E; apply last_http). split; [exact L|].
      destruct (HB rq (Some rp)) as [Hb | Hb].
      + rewrite E. apply in_or_app. right. left. reflexivity.
      + congruence.
      + rewrite Hb in Sv. exact (S rp Sv L).
    - exists rp. assert (L : last_answer tr = Some rp) by (rewrite E; apply last_read). split; [exact L|].
      rewrite (HW l h ok d ok' [ERead (Some rp)] E) in Sv. exact (S rp Sv L). }
  destruct F as (rp & L & C & D & V).
  destruct Hres as [(r' & rp' & -> & -> & L' & _ & D' & _) | (_ & _ & N)].
  - rewrite L in L'. injection L' as <-. rewrite D in D'. injection D' as <-. auto.
  - exfalso. exact (N rp r0 L C D V).
Qed.
