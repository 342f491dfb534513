(** What a request says whose fields are not exact. *)
From Coq Require Import QArith Bool List Lia ZifyBool.
From Verif Require Import GoStr GoStrFacts GoTime Types Enums EnumTables Records Common Messages Codec CodecFacts CodecSim SpecCodec Schema SchemaInv
  Document SpecDocument DocumentFacts SetsFacts TreeFacts SimFacts SpecXml SpellFacts SpecWire Headers SpecHeader Xml Wire WireFacts
  SpecReading ReadingFacts ReadingLists ReadingDocs RequestReading SpecAgain AgainFacts AgainDocFacts SpecRequestAgain
  DateFacts SpecDecode ClosureDocs AgainReadFacts SettleDocFacts Url Clients SpecClients ClientFacts SpecExchange ExchangeFacts.
Close Scope Q_scope.
Open Scope list_scope.

Lemma encoded_again e m nodes : message_every (readable e) m -> snd (message_type m) = Rq ->
  encode_message m = Some nodes ->
  exists k, nodes = [Elem (message_name m) k] /\ reads_as e (Elem (message_name m) k) (message_changed (again e) m).
Proof.
  intros Hr Hd E.
  destruct m; try discriminate Hd; clear Hd; cbn [encode_message message_name message_every reads_as message_changed] in *;
  (match type of E with encode_as ?t ?v = _ =>
    let Hw := fresh in
    assert (Hw : negb (null (top_name t)) && wf_ty t false = true) by (vm_compute; reflexivity);
    let Hrt := fresh in
    assert (Hrt : at_ok e t (top_name t) v) by (apply readable_at; [vm_compute; reflexivity | exact Hr]);
    let k := fresh "k" in
    destruct (top_again e t v nodes Hw Hrt E) as (k & -> & Hu); clear Hw Hrt E;
    exists k; split; [reflexivity|]
  end);
  (etransitivity; [apply f_equal; exact Hu|]); reflexivity.
Qed.

Lemma request_set_type set ms m slots : In (set, ms) (request_sets slots) -> belongs_in m = set -> snd (message_type m) = Rq.
Proof.
  intros Hin <-. rewrite belongs_in_type in Hin.
  unfold request_sets in Hin. cbn [In] in Hin.
  destruct (message_type m) as [t d]. cbn [snd]. destruct d; [reflexivity|].
  exfalso. decompose [or] Hin; try contradiction;
    match goal with H : (?x, _) = (_, _) |- _ => injection H as H _; clear - H; destruct t; vm_compute in H; discriminate H end.
Qed.

Lemma sent_type m : message_type (sent m) = message_type m.
Proof. destruct m; reflexivity. Qed.

Lemma belongs_in_changed f m : belongs_in (message_changed f m) = belongs_in m.
Proof. destruct m; reflexivity. Qed.

Lemma tag_changed f m : transaction_tag (message_changed f m) = transaction_tag m.
Proof. destruct m; reflexivity. Qed.

Lemma request_sets_map f slots : request_sets (map_slots f slots) = map (fun p => (fst p, map f (snd p))) (request_sets slots).
Proof. reflexivity. Qed.

Theorem request_said_again e q t q' n : request_tree q = Some (t, q') -> request_every (readable e) q' -> sim t n ->
  request_says e n (signon_changed (again e) (rq_signon q')) (slots_changed (again e) (rq_slots q')).
Proof.
  intros Et [Hs Hm] Hsim. pose proof (proj1 (request_tree_iff q)) as Hacc. rewrite Et in Hacc.
  destruct Hacc as [_ Hacc]; [discriminate|].
  destruct (request_tree_spec q t q' Et) as (-> & k & ns & -> & Es & HW).
  cbn [rq_signon rq_slots sent_request] in *.
  destruct (sim_is_elem _ _ _ Hsim) as (kids & -> & Hk).
  assert (Hns : solid ns = ns).
  { clear - HW. induction HW as [| |set ms kids tbl ns _ _ _ IH]; [reflexivity | assumption|]. cbn [solid filter]. f_equal. exact IH. }
  cbn [solid filter] in Hk. fold (solid ns) in Hk. rewrite Hns in Hk.
  inversion Hk as [|a b la sets Hab Hsets E1 E2]; subst. clear Hk.
  destruct (sim_is_elem _ _ _ Hab) as (son & -> & Hson). cbn [solid filter] in Hson.
  inversion Hson as [|a b' la l' Hson' Hnil E3 E4]; subst. inversion Hnil; subst. clear Hson Hnil.
  destruct (sim_is_elem _ _ _ Hson') as (sonrq & -> & _).
  destruct (sets_said encodes _ _ (fun m n H => match encodes_written m n H with conj (ex_intro _ k E) _ => ex_intro _ _ (ex_intro _ k E) end)
    HW (request_names_nodup _) sets Hsets) as [H1 H2].
  exists kids, son, sonrq, sets. split; [reflexivity|]. split; [symmetry; exact E2|]. split; [symmetry; exact E4|].
  split; [|split].
  - assert (Hw : negb (null (top_name SignonRequest_ty)) && wf_ty SignonRequest_ty false = true) by (vm_compute; reflexivity).
    assert (Hrt : at_ok e SignonRequest_ty (top_name SignonRequest_ty) (SignonRequest_to (sent_signon (rq_signon q))))
      by (apply readable_at; [vm_compute; reflexivity | exact Hs]).
    destruct (top_again e SignonRequest_ty _ _ Hw Hrt Es) as (k' & Ek & Hu). injection Ek as <-.
    rewrite (sim_unmarshal e _ _ _ _ Hson') in Hu.
    apply (whole_struct e (bs "SONRQ") SignonRequest_fields SignonRequest_to SignonRequest_of (SignonRequest_says e) (bs "SONRQ") sonrq _
      SignonRequest_iso SignonRequest_inv (SignonRequest_read e) eq_refl).
    change (TStruct (bs "SONRQ") SignonRequest_fields) with SignonRequest_ty.
    match type of Hu with ?a = _ => replace (unmarshal e SignonRequest_ty (Elem (bs "SONRQ") sonrq) (zero SignonRequest_ty)) with a by reflexivity end.
    rewrite Hu. cbn [option_map]. reflexivity.
  - exact H1.
  - intros set ms Hin. unfold slots_changed in Hin. rewrite request_sets_map in Hin.
    apply in_map_iff in Hin as ((set1 & ms1) & [= <- <-] & Hin1).
    rewrite request_sets_sent in Hin1. pose proof Hin1 as Hin'. apply in_map_iff in Hin1 as ((set0 & ms0) & [= <- <-] & Hin).
    specialize (H2 _ _ Hin). cbn [snd fst] in *.
    assert (Hrep : forall m, In m ms0 -> message_every (readable e) (sent m)).
    { intros m Hi. apply (Hm set0 (map sent ms0)); [rewrite request_sets_sent; exact Hin' | apply in_map; exact Hi]. }
    assert (Hb : forall m, In m ms0 -> belongs_in m = set0) by (intros m Hi; apply (Hacc set0 ms0 m Hin Hi)).
    assert (Hq : forall m, In m ms0 -> snd (message_type m) = Rq) by (intros m Hi; exact (request_set_type set0 ms0 m _ Hin (Hb m Hi))).
    clear - H2 Hrep Hb Hq. induction H2 as [|m n ms l (n0 & He & Hsn) _ IH]; cbn [map]; constructor.
    + unfold encodes in He.
      assert (Ht : snd (message_type (sent m)) = Rq) by (rewrite sent_type; apply Hq; left; reflexivity).
      destruct (encoded_again e (sent m) [n0] (Hrep m (or_introl eq_refl)) Ht He) as (k0 & E0 & Hr).
      injection E0 as ->. apply (sim_reads_as e _ _ _ Hsn) in Hr.
      destruct (sim_is_elem _ _ _ Hsn) as (k' & -> & _). split; [rewrite belongs_in_changed, belongs_in_sent; apply Hb; left; reflexivity|].
      rewrite tag_changed. exists k'. split; [f_equal; symmetry; apply transaction_tag_name|]. apply message_read.
      rewrite tag_changed, transaction_tag_name. exact Hr.
    + apply IH; intros m' Hi; [apply Hrep | apply Hb | apply Hq]; right; exact Hi.
Qed.

Theorem request_sent_again e q q' s rest : known_version (rq_version q) -> request_clean q -> request_every (readable e) q' ->
  request_marshal q = Some (s, q') ->
  exists n, read_document (s ++ rest) = Some (rq_version q, n) /\
    request_says e n (signon_changed (again e) (rq_signon q')) (slots_changed (again e) (rq_slots q')).
Proof.
  intros Hv Hc Hr Hm.
  assert (Et : exists t, request_tree q = Some (t, q')).
  { unfold request_marshal in Hm. destruct (request_tree q) as [[t q'']|]; [|discriminate]. exists t. cbn [bind fst snd] in Hm.
    injection Hm as _ ->. reflexivity. }
  destruct Et as [t Et]. destruct (request_read_clean q t q' s rest Hv Hc Et Hm) as (n & E & Hn).
  exists n. split; [exact E|]. apply (request_said_again e q t q' n Et Hr). apply same_tree_sim. exact Hn.
Qed.

(** ** Dates of any nanosecond *)

Lemma whole_ms_text t : date_string (whole_ms t) = date_string t.
Proof.
  rewrite !date_string_shape. cbn [t_off t_zone whole_ms].
  assert (E : format_ms (whole_ms t) = format_ms t); [|rewrite E; reflexivity].
  unfold format_ms, local_secs, whole_ms. cbn [t_ns t_off]. change sec_ns with 1000000000%Z.
  generalize (t_ns t). intros x.
  assert (E1 : ((x - x mod 1000000) / 1000000000 = x / 1000000000)%Z) by (Z.to_euclidean_division_equations; lia).
  assert (E2 : ((x - x mod 1000000) mod 1000000000 / 1000000 = x mod 1000000000 / 1000000)%Z) by (Z.to_euclidean_division_equations; lia).
  rewrite E1, E2. reflexivity.
Qed.

Lemma back_cut_ms e l v : back e l (cut_ms l v) = back e l v.
Proof. destruct l; try reflexivity. unfold back. cbn [cut_ms leaf_marshal]. rewrite whole_ms_text. reflexivity. Qed.

Lemma exact_again e l v : enum_leaf_ok l = true -> exact_to_ms e l v -> readable e l v /\ again e l v = cut_ms l v.
Proof.
  intros Hw H. assert (Hrt : leaf_rt e l (cut_ms l v)).
  { apply leaf_ok_rt; [|exact H]. intros t ->. exact Hw. }
  unfold readable, again. rewrite <- (back_cut_ms e l v). unfold leaf_rt in Hrt. unfold back.
  destruct (leaf_marshal l (cut_ms l v)) as [[s|]|]; [| |contradiction].
  - rewrite Hrt. split; [eauto|reflexivity].
  - rewrite Hrt. split; [eauto|reflexivity].
Qed.

Lemma request_enums (P Q : forall l, leafval l -> Prop) q : (forall l v, enum_leaf_ok l = true -> P l v -> Q l v) ->
  request_every P q -> request_every Q q.
Proof.
  intros H [H1 H2]. split; [refine (proj1 (every_enums_all P Q H) _ _ _ H1); vm_compute; reflexivity|].
  intros set ms m Hs Hm. exact (message_enums P Q m H (H2 set ms m Hs Hm)).
Qed.

Lemma signon_ext f g s : every (fun l x => f l x = g l x) SignonRequest_ty (SignonRequest_to s) -> signon_changed f s = signon_changed g s.
Proof. intros H. unfold signon_changed. f_equal. exact (proj1 (changed_ext_all f g) _ _ H). Qed.

Lemma slots_ext f g s : (forall set ms m, In (set, ms) (request_sets s) -> In m ms -> message_every (fun l x => f l x = g l x) m) ->
  slots_changed f s = slots_changed g s.
Proof.
  intros H. apply request_sets_inj. unfold slots_changed. rewrite !request_sets_map. apply map_ext_in.
  intros [set ms] Hin. cbn [fst snd]. f_equal. apply map_ext_in. intros m Hm. apply message_ext. exact (H set ms m Hin Hm).
Qed.

Theorem request_sent_cut e q q' s rest : known_version (rq_version q) -> request_clean q -> request_every (exact_to_ms e) q' ->
  request_marshal q = Some (s, q') ->
  exists n, read_document (s ++ rest) = Some (rq_version q, n) /\
    request_says e n (signon_changed cut_ms (rq_signon q')) (slots_changed cut_ms (rq_slots q')).
Proof.
  intros Hv Hc Hr Hm.
  assert (R : request_every (readable e) q') by (revert Hr; apply request_enums; intros l v Hw H; apply (exact_again e l v Hw H)).
  assert (C : request_every (fun l x => again e l x = cut_ms l x) q') by (revert Hr; apply request_enums; intros l v Hw H; apply (exact_again e l v Hw H)).
  destruct (request_sent_again e q q' s rest Hv Hc R Hm) as (n & E & H). exists n. split; [exact E|].
  destruct C as [C1 C2]. rewrite <- (signon_ext (again e) cut_ms _ C1), <- (slots_ext (again e) cut_ms _ C2). exact H.
Qed.

(** ** Exchanges *)

Lemma exchange_says w e c q b q1 f tr r err q' signon messages :
  let r0 := f signon messages in let r1 := response_changed (again e) r0 in
  request_marshal (set_client_fields (w_now w) c q) = Some (b, q1) -> document_says e b signon messages ->
  response_every (readable e) r0 -> response_clean r0 -> known_version (rs_version r0) ->
  (forall set ms m, In (set, ms) (response_sets (rs_slots r0)) -> In m ms -> loanless m) ->
  response_valid r1 = None ->
  runs (client_request w e c q) tr ((r, err), q') -> answered_by e f tr ->
  r = Some r1 /\ err = None /\ q' = q1.
Proof.
  intros r0 r1 Hm Hd R1 R2 R3 R4 V1 H A.
  pose proof (request_result _ _ _ _ _ _ _ _ H) as Hres.
  destruct (client_request_runs _ _ _ _ _ _ _ H) as (o & Hn & _).
  destruct (sent_bytes _ _ _ _ _ _ _ _ Hn Hm) as (-> & HB & HW).
  assert (S : forall rp, serves e f b rp -> last_answer tr = Some rp ->
    rp_code rp = 200%Z /\ decode_response e (rp_body rp) = Some r1).
  { intros rp [C S] L. split; [exact C|].
    destruct (S signon messages Hd) as (s & rest & M & ->).
    exact (response_again e r0 s rest R1 R2 R3 R4 M). }
  assert (F : exists rp, last_answer tr = Some rp /\ rp_code rp = 200%Z /\ decode_response e (rp_body rp) = Some r1).
  { destruct A as [(l & rq & rp & E & Ne & Sv) | (l & h & ok & d & ok' & rp & E & Sv)].
    - exists rp. assert (L : last_answer tr = Some rp) by (rewrite E; apply last_http). split; [exact L|].
      destruct (HB rq (Some rp)) as [Hb | Hb].
      + rewrite E. apply in_or_app. right. left. reflexivity.
      + congruence.
      + rewrite Hb in Sv. exact (S rp Sv L).
    - exists rp. assert (L : last_answer tr = Some rp) by (rewrite E; apply last_read). split; [exact L|].
      rewrite (HW l h ok d ok' [ERead (Some rp)] E) in Sv. exact (S rp Sv L). }
  destruct F as (rp & L & C & D).
  destruct Hres as [(r' & rp' & -> & -> & L' & _ & D' & _) | (_ & _ & N)].
  - rewrite L in L'. injection L' as <-. rewrite D in D'. injection D' as <-. auto.
  - exfalso. exact (N rp r1 L C D V1).
Qed.

Theorem exchange_cut w e c q b q1 f tr r err q' :
  let r0 := f (signon_changed cut_ms (rq_signon q1)) (slots_changed cut_ms (rq_slots q1)) in
  let r1 := response_changed (again e) r0 in
  request_marshal (set_client_fields (w_now w) c q) = Some (b, q1) ->
  request_clean (set_client_fields (w_now w) c q) -> request_every (exact_to_ms e) q1 ->
  response_every (readable e) r0 -> response_clean r0 -> known_version (rs_version r0) ->
  (forall set ms m, In (set, ms) (response_sets (rs_slots r0)) -> In m ms -> loanless m) ->
  response_valid r1 = None ->
  runs (client_request w e c q) tr ((r, err), q') -> answered_by e f tr ->
  r = Some r1 /\ err = None /\ q' = q1.
Proof.
  intros r0 r1 Hm Hc Hr. apply (exchange_says w e c q b q1 f tr r err q' _ _ Hm).
  assert (V : known_version (rq_version (set_client_fields (w_now w) c q))) by exact (client_version_known c).
  destruct (request_sent_cut e _ q1 b [] V Hc Hr Hm) as (n & E & Hs). rewrite app_nil_r in E.
  exists (rq_version (set_client_fields (w_now w) c q)), n. auto.
Qed.
