(** Proofs about goroutines. *)
From Coq Require Import QArith Lia Bool.
From Verif Require Import GoStr GoStrFacts GoTime Types Enums EnumTables Records Common Messages Codec Schema
  Document Xml Headers Leaves Wire Marshal Url Clients SpecClients TreeFacts SetsFacts AttemptFacts SpecDocument Goroutines SpecGoroutines.
Close Scope Q_scope.

(** ** Goroutines that use one request *)

Inductive owns (a : nat) : routine -> Prop :=
| ow_ended o : owns a (Ended o)
| ow_look k : (forall t, owns a (k t)) -> owns a (Look k)
| ow_store f k : owns a k -> owns a (Store a f k)
| ow_load k : (forall q, owns a (k q)) -> owns a (Load a k)
| ow_talk p k : (forall o, owns a (k o)) -> owns a (Talk p k).

Lemma owns_marshal a k : (forall r, owns a (k r)) -> owns a (marshal_steps a k).
Proof.
  intros H. unfold marshal_steps. do 6 (constructor; intros). cbv zeta.
  assert (R : owns a match snd (signon_request_valid (rq_signon q4)) with
      | Some err => k (inr (EPlain err))
      | None =>
          Load a (fun q7 =>
          Load a (fun q8 =>
          Load a (fun q9 =>
          Store a (put_messages (slots_of_list (fst (attempt_sets (set_table (rq_slots q9) Rq) (rq_version q8)))))
            match snd (attempt_sets (set_table (rq_slots q9) Rq) (rq_version q8)) with
            | Some err => k (inr err)
            | None =>
                match encode_as SignonRequest_ty (SignonRequest_to (rq_signon q7)), encode_sets (set_table (rq_slots q9) Rq) (rq_version q8) with
                | Some s, Some r =>
                    k (inl (header_or_nothing (rq_version q) (rq_cr q0) ++
                            print (mkStyle (rq_indent q1) (rq_cr q2) (if (rq_version q3 <? OfxVersion200)%N then ofx_leaf_elements else [])) true 0
                              (Elem (bs "OFX") (Elem (msgtype_string (MSignon, Rq)) s :: fst r))))
                | _, _ => k (inr (EPlain []))
                end
            end)))
      end).
  { destruct (snd (signon_request_valid _)); [apply H|]. do 4 (constructor; intros).
    destruct (snd (attempt_sets _ _)); [apply H|]. destruct (encode_as _ _); [destruct (encode_sets _ _)|]; apply H. }
  destruct (str_eqb _ _); [exact R|]. constructor. exact R.
Qed.

Lemma owns_request w c a : owns a (request_routine w c a).
Proof.
  unfold request_routine, client_fields. constructor. intros t. do 6 constructor. cbv zeta. apply owns_marshal. intros [b|err]; [|constructor].
  constructor. intros q. constructor. intros o. destruct c; try constructor.
  destruct (fst o) as [rp|]; [|constructor]. destruct ((rp_length rp <=? 0)%Z && _); [|constructor].
  apply owns_marshal. intros [b'|err]; [|constructor]. constructor. intros q'. constructor. intros. constructor.
Qed.

(** ** Alone *)

(** The steps of a goroutine on its request when there are no others. *)
Inductive lone (a : nat) : Request -> routine -> list event -> Request -> routine -> Prop :=
| lo_stop q r : lone a q r [] q r
| lo_step q r e h1 r1 tr q2 r2 : step (fun _ => q) r e h1 r1 -> lone a (h1 a) r1 tr q2 r2 ->
    lone a q r (match e with Some x => x :: tr | None => tr end) q2 r2.

Lemma lone_trans a q r tr q1 r1 : lone a q r tr q1 r1 -> forall tr2 q2 r2, lone a q1 r1 tr2 q2 r2 -> lone a q r (tr ++ tr2) q2 r2.
Proof.
  induction 1 as [q r|q r e h1 r1 tr q2 r2 S _ IH]; intros tr3 q3 r3 H; [exact H|].
  replace ((match e with Some x => x :: tr | None => tr end) ++ tr3) with (match e with Some x => x :: (tr ++ tr3) | None => tr ++ tr3 end)
    by (destruct e; reflexivity).
  econstructor; [exact S|]. apply IH, H.
Qed.

Lemma written_same h a q : written h a q a = q.
Proof. unfold written. rewrite Nat.eqb_refl. reflexivity. Qed.

Lemma step_lone a h r e h1 r1 : owns a r -> step h r e h1 r1 ->
  owns a r1 /\ (exists h', step (fun _ => h a) r e h' r1 /\ h' a = h1 a) /\ forall b, b <> a -> h1 b = h b.
Proof.
  intros O S. destruct S; inversion O; subst;
    try (split; [auto; constructor; auto|]; split; [eexists; split; [constructor|reflexivity]|reflexivity]; fail).
  - split; [assumption|]. split; [eexists; split; [constructor|]|].
    + rewrite !written_same. reflexivity.
    + intros b Hb. unfold written. apply Nat.eqb_neq in Hb. rewrite Hb. reflexivity.
  - split; [auto|]. split; [|reflexivity]. exists (fun _ => h a0). split; [|reflexivity]. exact (st_load (fun _ => h a0) a0 k).
Qed.

Lemma nth_replaced_same A i (x : A) l y : nth_error l i = Some y -> nth_error (replaced i x l) i = Some x.
Proof. revert i. induction l as [|z l IH]; intros [|i]; cbn; try discriminate; auto. Qed.
Lemma nth_replaced_other A i j (x : A) l : i <> j -> nth_error (replaced i x l) j = nth_error l j.
Proof. revert i j. induction l as [|z l IH]; intros [|i] [|j] H; cbn; auto; lia. Qed.
Lemma replaced_length A i (x : A) l : length (replaced i x l) = length l.
Proof. revert i. induction l as [|z l IH]; intros [|i]; cbn; auto. Qed.

(** Goroutines with requests of their own behave as if they were alone. *)
Lemma together_lone h l log h2 l2 : together h l log h2 l2 -> forall addrs, NoDup addrs ->
  length l = length addrs -> (forall i a r, nth_error addrs i = Some a -> nth_error l i = Some r -> owns a r) ->
  (forall i a r, nth_error addrs i = Some a -> nth_error l i = Some r ->
     exists r2, nth_error l2 i = Some r2 /\ lone a (h a) r (done_by i log) (h2 a) r2) /\
  (forall b, ~ In b addrs -> h2 b = h b).
Proof.
  induction 1 as [h l|h l i r e h1 r1 log h2 l2 Hi S _ IH]; intros addrs Nd Hlen Own.
  - split; [|reflexivity]. intros i a r _ Hr. exists r. split; [exact Hr|constructor].
  - destruct (nth_error addrs i) as [a|] eqn:Ha.
    2:{ exfalso. apply nth_error_None in Ha. assert (i < length l) by (apply nth_error_Some; congruence). lia. }
    destruct (step_lone a _ _ _ _ _ (Own _ _ _ Ha Hi) S) as (O1 & (h' & S' & Hh') & Hother).
    destruct (IH addrs Nd) as [IH1 IH2].
    { rewrite replaced_length. exact Hlen. }
    { intros j b s Hb Hs. destruct (Nat.eq_dec i j) as [<-|Hij].
      - rewrite (nth_replaced_same _ _ _ _ _ Hi) in Hs. congruence.
      - rewrite nth_replaced_other in Hs by exact Hij. exact (Own _ _ _ Hb Hs). }
    split.
    + intros j b s Hb Hs. destruct (Nat.eq_dec i j) as [<-|Hij].
      * assert (b = a) as -> by congruence. assert (s = r) as -> by congruence.
        destruct (IH1 i a r1 Ha (nth_replaced_same _ _ _ _ _ Hi)) as (r2 & Hr2 & L). exists r2. split; [exact Hr2|].
        replace (done_by i (match e with Some x => (i, x) :: log | None => log end))
          with (match e with Some x => x :: done_by i log | None => done_by i log end)
          by (destruct e; cbn; rewrite ?Nat.eqb_refl; reflexivity).
        econstructor; [exact S'|]. rewrite Hh'. exact L.
      * destruct (IH1 j b s Hb) as (r2 & Hr2 & L); [rewrite nth_replaced_other; assumption|]. exists r2. split; [exact Hr2|].
        replace (done_by j (match e with Some x => (i, x) :: log | None => log end)) with (done_by j log).
        2:{ destruct e; cbn; [|reflexivity]. apply Nat.eqb_neq in Hij. rewrite Hij. reflexivity. }
        rewrite <- (Hother b); [exact L|]. intros ->. apply Hij. clear - Nd Ha Hb.
        eapply NoDup_nth_error; [exact Nd|apply nth_error_Some; congruence|congruence].
    + intros b Hb. rewrite (IH2 b Hb). apply Hother. intros ->. apply Hb. eapply nth_error_In, Ha.
Qed.

(** ** A goroutine that ends *)

Lemma lone_inv a q r tr q2 o : lone a q r tr q2 (Ended o) ->
  match r with
  | Ended o1 => tr = [] /\ q2 = q /\ o = o1
  | Look k => exists t, lone a q (k t) tr q2 (Ended o)
  | Store b f k => lone a (if Nat.eqb a b then f q else q) k tr q2 (Ended o)
  | Load b k => lone a q (k q) tr q2 (Ended o)
  | Talk p k => exists tr1 tr2 o1, tr = tr1 ++ tr2 /\ runs p tr1 o1 /\ lone a q (k o1) tr2 q2 (Ended o)
  end.
Proof.
  intros H. remember (Ended o) as goal eqn:G. induction H as [q r|q r e h1 r1 tr q2 r2 S L IH]; subst.
  - auto.
  - specialize (IH eq_refl). inversion S; subst; try exact L.
    + exists t. exact L.
    + eexists [], tr, _. split; [reflexivity|]. split; [constructor|exact L].
    + destruct IH as (tr1 & tr2 & o1 & -> & R & L1). eexists (_ :: tr1), tr2, o1. split; [reflexivity|]. split; [constructor; exact R|exact L1].
    + destruct IH as (tr1 & tr2 & o1 & -> & R & L1). eexists (_ :: tr1), tr2, o1. split; [reflexivity|]. split; [constructor; exact R|exact L1].
    + destruct IH as (tr1 & tr2 & o1 & -> & R & L1). eexists (_ :: tr1), tr2, o1. split; [reflexivity|]. split; [constructor; exact R|exact L1].
    + destruct IH as (tr1 & tr2 & o1 & -> & R & L1). eexists (_ :: tr1), tr2, o1. split; [reflexivity|]. split; [constructor; exact R|exact L1].
Qed.

Lemma lone_store a q f k tr q2 o : lone a q (Store a f k) tr q2 (Ended o) -> lone a (f q) k tr q2 (Ended o).
Proof. intros H. apply lone_inv in H. rewrite Nat.eqb_refl in H. exact H. Qed.
Lemma lone_load a q k tr q2 o : lone a q (Load a k) tr q2 (Ended o) -> lone a q (k q) tr q2 (Ended o).
Proof. intros H. exact (lone_inv _ _ _ _ _ _ H). Qed.

Lemma lone_marshal a q k tr q2 o : lone a q (marshal_steps a k) tr q2 (Ended o) ->
  match request_marshal q with
  | Some (b, q1) => lone a q1 (k (inl b)) tr q2 (Ended o)
  | None => lone a (request_after q) (k (inr (marshal_failure q))) tr q2 (Ended o)
  end.
Proof.
  unfold marshal_steps. intros H. do 6 apply lone_load in H. cbv zeta in H.
  unfold request_marshal, request_tree, request_after, marshal_failure, request_attempt.
  pose proof (signon_after (rq_signon q)) as Haft.
  destruct (signon_request_valid (rq_signon q)) as [sn err] eqn:Es. cbn [fst snd] in *.
  set (q' := mkRequest (rq_url q) (rq_version q) sn (rq_slots q) (rq_indent q) (rq_cr q)).
  set (rest := match err with Some _ => _ | None => _ end) in H.
  assert (L : lone a q' rest tr q2 (Ended o)).
  { destruct (str_eqb_spec (SignonRequest_Language sn) (SignonRequest_Language (rq_signon q))) as [E|E].
    - replace q' with q; [exact H|]. unfold q'. destruct q as [u v s sl i c]. cbn [rq_url rq_version rq_signon rq_slots rq_indent rq_cr] in *.
      f_equal. destruct Haft as [->| ->]; [reflexivity|]. clear - E. destruct s as [a1 a2 a3 a4 a5 a6 a7 a8 a9 a10 a11]. unfold sent_signon in *. cbn in E |- *. rewrite E. reflexivity.
    - apply lone_store in H. replace q' with (put_language (SignonRequest_Language sn) q); [exact H|].
      unfold q', put_language. destruct q as [u v s sl i c]. cbn [rq_url rq_version rq_signon rq_slots rq_indent rq_cr] in *. f_equal.
      destruct Haft as [->| ->]; [destruct s; reflexivity|]. destruct s; reflexivity. }
  clear H. subst rest. destruct err as [err|].
  - exact L.
  - do 3 apply lone_load in L. apply lone_store in L. unfold q' in L at 2 3 4 5. cbn [rq_version rq_slots rq_signon] in L.
    unfold put_messages, q' in L. cbn [rq_url rq_version rq_signon rq_slots rq_indent rq_cr] in L.
    destruct (encode_signon_request sn) as [x Ex]. rewrite Ex in *. cbn [bind].
    pose proof (attempt_sets_ok (set_table (rq_slots q) Rq) (rq_version q)) as A.
    destruct (encode_sets (set_table (rq_slots q) Rq) (rq_version q)) as [[n l]|]; cbn [bind fst snd] in *.
    + rewrite A in L. cbn [fst snd] in L. exact L.
    + destruct (attempt_sets (set_table (rq_slots q) Rq) (rq_version q)) as [l [err|]]; cbn [fst snd] in *; [exact L|contradiction].
Qed.

Lemma runs_andthen A B (p : net A) (f : A -> net B) tr1 x tr2 y : runs p tr1 x -> runs (f x) tr2 y -> runs (andthen p f) (tr1 ++ tr2) y.
Proof. induction 1; intros H2; cbn [andthen app]; [exact H2|constructor..]; auto. Qed.

Lemma fields_put now c q :
  put_cr (client_cr c) (put_indent (client_indent c) (put_appver (client_appver c) (put_appid (client_id c)
    (put_version (client_version c) (put_time now q))))) = set_client_fields now c q.
Proof. reflexivity. Qed.

Lemma lone_request w c a q tr q2 o : lone a q (request_routine w c a) tr q2 (Ended o) ->
  exists now, runs (request_no_parse (at_time w now) c q) tr (o, q2).
Proof.
  unfold request_routine, client_fields. intros H. apply lone_inv in H as [now H]. exists now.
  do 6 apply lone_store in H. rewrite fields_put in H. cbv zeta in H.
  apply lone_marshal in H. unfold request_no_parse. change (w_now (at_time w now)) with now.
  set (q1 := set_client_fields now c q) in *. destruct (request_marshal q1) as [[b q']|].
  2:{ apply lone_inv in H as (-> & -> & ->). constructor. }
  apply lone_load in H. apply lone_inv in H as (tr1 & tr2 & o1 & -> & R & H).
  eapply runs_andthen; [exact R|].
  assert (F : forall x, lone a q' (Ended x) tr2 q2 (Ended o) -> runs (Done (x, q')) tr2 (o, q2)).
  { intros x L. apply lone_inv in L as (-> & -> & ->). constructor. }
  destruct c; try (apply F; exact H). destruct (fst o1) as [rp|]; [|apply F; exact H].
  destruct ((rp_length rp <=? 0)%Z && _); [|apply F; exact H].
  apply lone_marshal in H. destruct (request_marshal q') as [[b' q'']|].
  2:{ apply lone_inv in H as (-> & -> & ->). constructor. }
  apply lone_load in H. apply lone_inv in H as (tr3 & tr4 & o2 & -> & R' & H).
  eapply runs_andthen; [exact R'|]. apply lone_inv in H as (-> & -> & ->). constructor.
Qed.

(** ** A goroutine can always end *)

Lemma lone_finishes a r : forall q, exists tr q2 o, lone a q r tr q2 (Ended o).
Proof.
  assert (One : forall q r h1 r1, step (fun _ => q) r None h1 r1 -> (exists tr q2 o, lone a (h1 a) r1 tr q2 (Ended o)) ->
    exists tr q2 o, lone a q r tr q2 (Ended o)).
  { intros q r' h1 r1 S (tr & q2 & o & L). exists tr, q2, o. exact (lo_step a q r' None h1 r1 tr q2 _ S L). }
  assert (Some' : forall q r e h1 r1, step (fun _ => q) r (Some e) h1 r1 -> (exists tr q2 o, lone a (h1 a) r1 tr q2 (Ended o)) ->
    exists tr q2 o, lone a q r tr q2 (Ended o)).
  { intros q r' e h1 r1 S (tr & q2 & o & L). exists (e :: tr), q2, o. exact (lo_step a q r' (Some e) h1 r1 tr q2 _ S L). }
  induction r as [o|k IH|b f k IH|b k IH|p k IH]; intros q.
  - exists [], q, o. constructor.
  - eapply One; [apply (st_look _ k zero_time)|]. apply IH.
  - eapply One; [apply st_store|]. apply IH.
  - eapply One; [apply (st_load (fun _ => q) b k)|]. apply IH.
  - revert q. induction p as [o|r p IHp|n p IHp|b p IHp|p IHp]; intros q.
    + eapply One; [apply st_talked|]. apply IH.
    + eapply Some'; [apply (st_http _ r p k None)|]. apply IHp.
    + eapply Some'; [apply (st_dial _ n p k false)|]. apply IHp.
    + eapply Some'; [apply (st_write _ b p k false)|]. apply IHp.
    + eapply Some'; [apply (st_read _ p k None)|]. apply IHp.
Qed.

Definition start (w : world) (l : list (client * nat)) : list routine := map (fun x => request_routine w (fst x) (snd x)) l.

Theorem goroutines_alone w l h log h2 l2 : NoDup (map snd l) -> together h (start w l) log h2 l2 ->
  (forall i c a, nth_error l i = Some (c, a) -> exists now rest o q,
     runs (request_no_parse (at_time w now) c (h a)) (done_by i log ++ rest) (o, q) /\
     forall o2, nth_error l2 i = Some (Ended o2) -> rest = [] /\ o = o2 /\ q = h2 a) /\
  (forall b, ~ In b (map snd l) -> h2 b = h b).
Proof.
  intros Nd H. destruct (together_lone _ _ _ _ _ H (map snd l) Nd) as [H1 H2].
  { unfold start. rewrite !map_length. reflexivity. }
  { intros i a r Ha Hr. unfold start in Hr. rewrite nth_error_map in Ha, Hr. destruct (nth_error l i) as [[c b]|]; [|discriminate].
    cbn in Ha, Hr. injection Ha as <-. injection Hr as <-. apply owns_request. }
  split; [|exact H2]. intros i c a Hi.
  destruct (H1 i a (request_routine w c a)) as (r2 & Hr2 & L).
  { rewrite nth_error_map, Hi. reflexivity. }
  { unfold start. rewrite nth_error_map, Hi. reflexivity. }
  destruct (lone_finishes a r2 (h2 a)) as (tr & q2 & o & F).
  destruct (lone_request _ _ _ _ _ _ _ (lone_trans _ _ _ _ _ _ L _ _ _ F)) as [now R].
  exists now, tr, o, q2. split; [exact R|]. intros o2 Ho2. rewrite Hr2 in Ho2. injection Ho2 as ->.
  apply lone_inv in F as (-> & -> & ->). auto.
Qed.
