(** Facts about Document.v: the message sets. *)
From Coq Require Import QArith Lia Bool.
From Coq Require Import List.
From Verif Require Import GoStr GoStrFacts GoTime Types Enums Records Common Messages ValidFacts SpecValid
  Codec CodecFacts CodecSim SpecCodec Schema Document SpecDocument DocumentFacts.
Close Scope Q_scope.

(** ** The names of the message sets *)

Definition all_types : list msgtype :=
  flat_map (fun s => [(s, Rq); (s, Rs)])
    [MSignon; MSignup; MBank; MCreditCard; MLoan; MInvStmt; MInterXfer; MWireXfer; MBillpay; MEmail;
     MSecList; MPresDir; MPresDlv; MProf; MImage].

Lemma all_types_all t : In t all_types.
Proof. destruct t as [s d]. destruct s, d; cbv; tauto. Qed.

Lemma msgtype_eqb_eq a b : msgtype_eqb a b = true <-> a = b.
Proof.
  destruct a as [s d], b as [s' d']. split.
  - destruct s, s', d, d'; cbv; congruence.
  - intros E. injection E as -> ->. destruct s', d'; reflexivity.
Qed.

Lemma msgtype_string_inj a b : msgtype_string a = msgtype_string b -> a = b.
Proof.
  assert (H : forallb (fun a => forallb (fun b =>
    implb (str_eqb (msgtype_string a) (msgtype_string b)) (msgtype_eqb a b)) all_types) all_types = true)
    by (vm_compute; reflexivity).
  intros E. rewrite forallb_forall in H. specialize (H a (all_types_all a)).
  rewrite forallb_forall in H. specialize (H b (all_types_all b)).
  rewrite E, str_eqb_refl in H. apply msgtype_eqb_eq. exact H.
Qed.

Lemma belongs_in_type m : belongs_in m = msgtype_string (message_type m).
Proof. destruct m; reflexivity. Qed.

Lemma belongs_in_iff m t : msgtype_eqb (message_type m) t = true <-> belongs_in m = msgtype_string t.
Proof.
  rewrite belongs_in_type, msgtype_eqb_eq. split; [congruence | apply msgtype_string_inj].
Qed.

Lemma transaction_tag_name m : transaction_tag m = message_name m.
Proof. destruct m; reflexivity. Qed.

Definition named_table (tbl : list (list Message * msgtype)) : list (str * list Message) :=
  map (fun p => (msgtype_string (snd p), fst p)) tbl.

Lemma request_table s : named_table (set_table s Rq) = request_sets s.
Proof. reflexivity. Qed.

Lemma response_table s : named_table (set_table s Rs) = response_sets s.
Proof. reflexivity. Qed.

(** ** Encoding *)

Lemma message_valid_sent m v m' : message_valid m v = (m', None) -> m' = sent m.
Proof.
  destruct m; cbn [message_valid sent]; try congruence.
  unfold profile_request_valid. destruct (uid_validity (ProfileRequest_TrnUID r)); [discriminate|].
  congruence.
Qed.

Lemma message_valid_effect m v :
  (message_ok v m -> fst (message_valid m v) = sent m) /\
  (~ message_ok v m -> fst (message_valid m v) = m).
Proof.
  destruct m; try (split; reflexivity). cbn [message_ok message_valid sent].
  unfold profile_request_valid. rewrite <- uid_validity_iff.
  destruct (uid_validity (ProfileRequest_TrnUID r)) as [e|]; split; intros H; try reflexivity; congruence.
Qed.

Lemma sent_encodable m : encodable (sent m) <-> encodable m.
Proof. destruct m; reflexivity. Qed.

Lemma sent_response m : snd (message_type m) = Rs -> sent m = m.
Proof. destruct m; try reflexivity; discriminate. Qed.


Lemma encode_messages_iff ms set version :
  some (encode_messages ms set version) <-> Forall (acceptable version (msgtype_string set)) ms.
Proof.
  induction ms as [|m ms IH]; cbn [encode_messages].
  - split; [constructor | discriminate].
  - destruct (msgtype_eqb (message_type m) set) eqn:Et; cbn [negb].
    + apply belongs_in_iff in Et. destruct (message_valid m version) as [m' [err|]] eqn:Ev.
      * split; [intros H; exfalso; apply H; reflexivity|].
        intros H. inversion H as [|? ? (_ & H1 & _) _]; subst.
        apply message_valid_iff in H1. rewrite Ev in H1. discriminate.
      * pose proof (message_valid_sent _ _ _ Ev) as ->.
        rewrite some_bind. split.
        -- intros (a & Ha & H). apply some_bind in H as (r & Hr & _). constructor.
           ++ split; [exact Et|]. split; [apply message_valid_iff; rewrite Ev; reflexivity|].
              apply sent_encodable. apply encode_message_iff. rewrite Ha. discriminate.
           ++ apply IH. rewrite Hr. discriminate.
        -- intros H. inversion H as [|? ? (_ & _ & H1) H2]; subst.
           apply sent_encodable, encode_message_iff, some_ex in H1 as [a Ha].
           apply IH, some_ex in H2 as [r Hr]. exists a. split; [exact Ha|]. rewrite Hr. discriminate.
    + split; [intros H; exfalso; apply H; reflexivity|].
      intros H. inversion H as [|? ? (H1 & _) _]; subst. apply belongs_in_iff in H1. congruence.
Qed.

Lemma encode_messages_spec ms set version nodes ms' :
  encode_messages ms set version = Some (nodes, ms') ->
  ms' = map sent ms /\
  Forall2 (fun m n => encode_message (sent m) = Some [n]) ms nodes.
Proof.
  revert nodes ms'. induction ms as [|m ms IH]; cbn [encode_messages]; intros nodes ms' H.
  - injection H as <- <-. split; [reflexivity | constructor].
  - destruct (negb (msgtype_eqb (message_type m) set)); [discriminate|].
    destruct (message_valid m version) as [m' [err|]] eqn:Ev; [discriminate|].
    pose proof (message_valid_sent _ _ _ Ev) as ->.
    destruct (encode_message (sent m)) as [a|] eqn:Ea; [|discriminate]. cbn [bind] in H.
    destruct (encode_messages ms set version) as [[b c]|]; [|discriminate]. cbn [bind fst snd] in H.
    injection H as <- <-. destruct (IH b c eq_refl) as [-> HF].
    destruct (encode_message_name _ _ Ea) as [k ->]. split; [reflexivity|]. constructor; assumption.
Qed.

Lemma encode_sets_iff tbl version :
  some (encode_sets tbl version) <->
  Forall (fun p => Forall (acceptable version (fst p)) (snd p)) (named_table tbl).
Proof.
  induction tbl as [|[ms t] tbl IH]; cbn [encode_sets named_table map].
  - split; [constructor | discriminate].
  - rewrite some_bind. cbn [fst snd].
    assert (Hset : some (encode_set ms t version) <-> Forall (acceptable version (msgtype_string t)) ms).
    { unfold encode_set. destruct ms as [|m ms].
      - cbn [null]. split; [constructor | discriminate].
      - cbn [null]. rewrite <- encode_messages_iff, some_bind, some_ex. split.
        + intros (r & Hr & _). eauto.
        + intros [r Hr]. exists r. split; [exact Hr|discriminate]. }
    split.
    + intros (a & Ha & H). apply some_bind in H as (r & Hr & _). constructor.
      * cbn [fst snd]. apply Hset. rewrite Ha. discriminate.
      * apply IH. rewrite Hr. discriminate.
    + intros H. inversion H as [|? ? H1 H2]; subst. cbn [fst snd] in H1.
      apply Hset, some_ex in H1 as [a Ha]. apply IH, some_ex in H2 as [r Hr].
      exists a. split; [exact Ha|]. rewrite Hr. discriminate.
Qed.

Definition encodes (m : Message) (n : node) : Prop := encode_message (sent m) = Some [n].

Lemma encode_sets_spec tbl version : forall nodes lists,
  encode_sets tbl version = Some (nodes, lists) ->
  lists = map (fun p => map sent (fst p)) tbl /\
  sets_written encodes (named_table tbl) nodes.
Proof.
  induction tbl as [|[ms t] tbl IH]; cbn [encode_sets named_table map]; intros nodes lists H.
  - injection H as <- <-. split; [reflexivity | constructor].
  - destruct (encode_set ms t version) as [[a b]|] eqn:Ea; [|discriminate]. cbn [bind] in H.
    destruct (encode_sets tbl version) as [[c d]|]; [|discriminate]. cbn [bind fst snd] in H.
    injection H as <- <-. destruct (IH c d eq_refl) as [-> HF]. clear IH. cbn [fst snd].
    unfold encode_set in Ea. destruct ms as [|m ms]; cbn [null] in Ea.
    + injection Ea as <- <-. split; [reflexivity|]. apply sets_empty. exact HF.
    + destruct (encode_messages (m :: ms) t version) as [[x y]|] eqn:Em; [|discriminate].
      cbn [bind fst snd] in Ea. injection Ea as <- <-.
      destruct (encode_messages_spec _ _ _ _ _ Em) as [-> HF2]. split; [reflexivity|].
      apply sets_one; [discriminate | exact HF2 | exact HF].
Qed.

Lemma encode_signon_request r : exists k, encode_as SignonRequest_ty (SignonRequest_to r) = Some [Elem (bs "SONRQ") k].
Proof.
  destruct (marshal_some SignonRequest_ty false [] false (SignonRequest_to r)) as [nodes E];
    [vm_compute; reflexivity|].
  destruct (proj2 (top_marshal SignonRequest_ty (SignonRequest_to r) ltac:(discriminate)) nodes E) as [k ->].
  exists k. exact E.
Qed.

Lemma encode_signon_response r : exists k, encode_as SignonResponse_ty (SignonResponse_to r) = Some [Elem (bs "SONRS") k].
Proof.
  destruct (marshal_some SignonResponse_ty false [] false (SignonResponse_to r)) as [nodes E];
    [vm_compute; reflexivity|].
  destruct (proj2 (top_marshal SignonResponse_ty (SignonResponse_to r) ltac:(discriminate)) nodes E) as [k ->].
  exists k. exact E.
Qed.

Lemma signon_sent r r' : signon_request_valid r = (r', None) -> r' = sent_signon r.
Proof.
  intros H. apply signon_valid_after in H as (H & Hl & _).
  destruct H as (H1 & H2 & H3 & H4 & H5 & H6 & H7 & H8 & H9 & H10).
  destruct r, r'; unfold sent_signon; cbn in *. congruence.
Qed.


Lemma slots_acceptable_iff version sets :
  slots_acceptable version sets <-> Forall (fun p => Forall (acceptable version (fst p)) (snd p)) sets.
Proof.
  unfold slots_acceptable. rewrite Forall_forall. split.
  - intros H [set ms] Hp. apply Forall_forall. intros m Hm. eapply H; eauto.
  - intros H set ms m Hp Hm. specialize (H _ Hp). cbn [fst snd] in H. rewrite Forall_forall in H. auto.
Qed.

Lemma request_tree_iff q :
  some (request_tree q) <->
  signon_ok (rq_signon q) /\ slots_acceptable (rq_version q) (request_sets (rq_slots q)).
Proof.
  unfold request_tree. rewrite <- signon_valid_iff, slots_acceptable_iff, <- request_table, <- encode_sets_iff.
  destruct (signon_request_valid (rq_signon q)) as [sn [err|]]; cbn [snd].
  - split; [intros H; exfalso; apply H; reflexivity | intros [H _]; discriminate].
  - destruct (encode_signon_request sn) as [k ->]. cbn [bind]. rewrite some_bind, some_ex. split.
    + intros (x & Hx & _). split; eauto.
    + intros [_ [x Hx]]. exists x. split; [exact Hx | discriminate].
Qed.

Lemma slots_of_sent s d : slots_of_list (map (fun p => map sent (fst p)) (set_table s d)) = map_slots sent s.
Proof. reflexivity. Qed.

Lemma request_tree_spec q t q' : request_tree q = Some (t, q') ->
  q' = sent_request q /\
  exists sonrq sets,
    t = Elem (bs "OFX") (Elem (bs "SIGNONMSGSRQV1") [Elem (bs "SONRQ") sonrq] :: sets) /\
    encode_as SignonRequest_ty (SignonRequest_to (sent_signon (rq_signon q))) = Some [Elem (bs "SONRQ") sonrq] /\
    sets_written encodes (request_sets (rq_slots q)) sets.
Proof.
  unfold request_tree. destruct (signon_request_valid (rq_signon q)) as [sn [err|]] eqn:Es; [discriminate|].
  apply signon_sent in Es. subst sn.
  destruct (encode_signon_request (sent_signon (rq_signon q))) as [k Ek]. rewrite Ek. cbn [bind].
  destruct (encode_sets (set_table (rq_slots q) Rq) (rq_version q)) as [[nodes lists]|] eqn:E; [|discriminate].
  cbn [bind fst snd]. intros H. injection H as <- <-.
  destruct (encode_sets_spec _ _ _ _ E) as [-> HF]. rewrite slots_of_sent. split; [reflexivity|].
  exists k, nodes. split; [reflexivity|]. split; [reflexivity|]. exact HF.
Qed.

Lemma response_tree_iff r :
  some (response_tree r) <->
  signon_response_ok (rs_signon r) /\ slots_acceptable (rs_version r) (response_sets (rs_slots r)).
Proof.
  rewrite <- signon_response_valid_iff. unfold response_tree. rewrite slots_acceptable_iff, <- response_table, <- encode_sets_iff.
  destruct (signon_response_valid (rs_signon r)) as [err|].
  - split; [intros H; exfalso; apply H; reflexivity | intros [H _]; discriminate].
  - destruct (encode_signon_response (rs_signon r)) as [k ->]. cbn [bind]. rewrite some_bind, some_ex. split.
    + intros (x & Hx & _). split; eauto.
    + intros [_ [x Hx]]. exists x. split; [exact Hx | discriminate].
Qed.

Lemma response_tree_spec r t : response_tree r = Some t ->
  exists sonrs sets,
    t = Elem (bs "OFX") (Elem (bs "SIGNONMSGSRSV1") [Elem (bs "SONRS") sonrs] :: sets) /\
    encode_as SignonResponse_ty (SignonResponse_to (rs_signon r)) = Some [Elem (bs "SONRS") sonrs] /\
    sets_written encodes (response_sets (rs_slots r)) sets.
Proof.
  unfold response_tree. destruct (signon_response_valid (rs_signon r)) as [err|] eqn:Es; [discriminate|].
  destruct (encode_signon_response (rs_signon r)) as [k Ek]. rewrite Ek. cbn [bind].
  destruct (encode_sets (set_table (rs_slots r) Rs) (rs_version r)) as [[nodes lists]|] eqn:E; [|discriminate].
  cbn [bind fst snd]. intros H. injection H as <-.
  destruct (encode_sets_spec _ _ _ _ E) as [-> HF].
  exists k, nodes. split; [reflexivity|]. split; [reflexivity|]. exact HF.
Qed.

(** Every encoded message reads back. *)
Lemma encode_reads e m n : message_representable e m -> encode_message m = Some [n] -> reads_as e n m.
Proof.
  intros Hr E.
  destruct m; cbn [encode_message reads_as message_representable] in *;
  (match type of E with encode_as ?t ?v = _ =>
    let Hw := fresh in
    assert (Hw : negb (null (top_name t)) && wf_ty t false = true) by (vm_compute; reflexivity);
    let Hrt := fresh in
    assert (Hrt : rt_ok e t (top_name t) v)
      by (first [apply representable_rt; [vm_compute; reflexivity | exact Hr]
                | apply invstmt_rt; apply Hr]);
    let k := fresh "k" in let Heq := fresh in
    destruct (top_round e t v _ Hw Hrt E) as (k & Heq & Hu); clear Hw Hrt E;
    injection Heq as ->
  end);
  (etransitivity; [apply f_equal; exact Hu|]);
  cbn [option_map];
  f_equal;
  first [ apply AcctInfoRequest_iso | apply StatementRequest_iso | apply CCStatementRequest_iso
        | apply InvStatementRequest_iso | apply SecListRequest_iso | apply ProfileRequest_iso
        | apply AcctInfoResponse_iso | apply StatementResponse_iso | apply CCStatementResponse_iso
        | apply InvStatementResponse_iso | apply SecListResponse_iso | apply SecurityList_iso
        | apply ProfileResponse_iso ].
Qed.

Lemma encodes_written m n : encodes m n -> written_as (sent m) n.
Proof.
  unfold encodes. intros H. split.
  - destruct (encode_message_name _ _ H) as [k E]. injection E as ->. exists k.
    f_equal; symmetry; apply transaction_tag_name.
  - intros e Hr. apply encode_reads; assumption.
Qed.

Lemma sets_written_impl (w w' : Message -> node -> Prop) tbl ns :
  (forall m n, w m n -> w' m n) -> sets_written w tbl ns -> sets_written w' tbl ns.
Proof.
  intros Hw H. induction H; [constructor| apply sets_empty; auto|].
  apply sets_one; auto. clear - Hw H0. induction H0; constructor; auto.
Qed.

(** ** Decoding *)

Lemma decode_messages_iff e set kids : forall ms,
  decode_messages e set kids = Some ms <-> Forall2 (fun m n => decode_message e set n = Some m) ms kids.
Proof.
  induction kids as [|n kids IH]; intros ms; cbn [decode_messages].
  - split; [intros H; injection H as <-; constructor | intros H; inversion H; reflexivity].
  - destruct (decode_message e set n) as [m|] eqn:Em; cbn [bind].
    + destruct (decode_messages e set kids) as [l|] eqn:El; cbn [bind].
      * split.
        -- intros H. injection H as <-. constructor; [exact Em|]. apply IH. reflexivity.
        -- intros H. inversion H as [|m' ? l' ? H1 H2]; subst. rewrite Em in H1. injection H1 as <-.
           apply IH in H2. congruence.
      * split; [discriminate|]. intros H. inversion H as [|m' ? l' ? H1 H2]; subst.
        apply IH in H2. discriminate.
    + split; [discriminate|]. intros H. inversion H; subst. congruence.
Qed.

Definition slot (set : msgset) (s : Slots) : list Message :=
  match set with
  | MSignon => []
  | MSignup => sl_signup s | MBank => sl_bank s | MCreditCard => sl_creditcard s | MLoan => sl_loan s
  | MInvStmt => sl_invstmt s | MInterXfer => sl_interxfer s | MWireXfer => sl_wirexfer s
  | MBillpay => sl_billpay s | MEmail => sl_email s | MSecList => sl_seclist s
  | MPresDir => sl_presdir s | MPresDlv => sl_presdlv s | MProf => sl_prof s | MImage => sl_image s
  end.

Definition body_sets : list msgset :=
  [MSignup; MBank; MCreditCard; MLoan; MInvStmt; MInterXfer; MWireXfer; MBillpay; MEmail;
   MSecList; MPresDir; MPresDlv; MProf; MImage].

Lemma slots_eq s s' : (forall set, In set body_sets -> slot set s = slot set s') -> s = s'.
Proof.
  intros H. destruct s, s'.
  pose proof (H MSignup ltac:(cbv; tauto)) as H1. pose proof (H MBank ltac:(cbv; tauto)) as H2.
  pose proof (H MCreditCard ltac:(cbv; tauto)) as H3. pose proof (H MLoan ltac:(cbv; tauto)) as H4.
  pose proof (H MInvStmt ltac:(cbv; tauto)) as H5. pose proof (H MInterXfer ltac:(cbv; tauto)) as H6.
  pose proof (H MWireXfer ltac:(cbv; tauto)) as H7. pose proof (H MBillpay ltac:(cbv; tauto)) as H8.
  pose proof (H MEmail ltac:(cbv; tauto)) as H9. pose proof (H MSecList ltac:(cbv; tauto)) as H10.
  pose proof (H MPresDir ltac:(cbv; tauto)) as H11. pose proof (H MPresDlv ltac:(cbv; tauto)) as H12.
  pose proof (H MProf ltac:(cbv; tauto)) as H13. pose proof (H MImage ltac:(cbv; tauto)) as H14.
  clear H. cbn in *. subst. reflexivity.
Qed.

Lemma msgset_eq_dec (a b : msgset) : {a = b} + {a <> b}.
Proof. decide equality. Qed.

Lemma slot_append set set' ms s : In set' body_sets ->
  slot set' (append_to set ms s) = slot set' s ++ (if msgset_eq_dec set set' then ms else []).
Proof.
  intros Hin. destruct s. destruct (msgset_eq_dec set set') as [<-|Hne].
  - destruct set; try reflexivity. cbv in Hin. decompose [or] Hin; try discriminate; contradiction.
  - rewrite app_nil_r. destruct set; destruct set'; try reflexivity; congruence.
Qed.

Lemma response_set_iff nm set : response_set nm = Some set <-> In set body_sets /\ nm = msgtype_string (set, Rs).
Proof.
  unfold response_set. fold body_sets. split.
  - intros H. apply find_some in H as [H1 H2]. split; [exact H1|]. symmetry. apply str_eqb_eq. exact H2.
  - intros [Hin ->].
    assert (F : forall l, In set l ->
      find (fun s => str_eqb (msgtype_string (s, Rs)) (msgtype_string (set, Rs))) l = Some set).
    { induction l as [|x l IH]; intros Hl; [destruct Hl|]. cbn [find].
      destruct (str_eqb (msgtype_string (x, Rs)) (msgtype_string (set, Rs))) eqn:E.
      - apply str_eqb_eq, msgtype_string_inj in E. congruence.
      - destruct Hl as [->|Hl]; [rewrite str_eqb_refl in E; discriminate | auto]. }
    apply F. exact Hin.
Qed.

(** An element that is a known message set with transactions that can be decoded. *)
Definition good_set (e : env) (n : node) : Prop :=
  exists set sub, n = Elem (msgtype_string (set, Rs)) sub /\ In set body_sets /\
    Forall (fun x => some (decode_message e set x)) (solid sub).

Lemma decode_sets_spec e kids : forall s0 s, decode_sets e kids s0 = Some s ->
  Forall (good_set e) kids /\
  forall set, In set body_sets -> exists ms,
    slot set s = slot set s0 ++ ms /\
    Forall2 (fun m n => decode_message e set n = Some m) ms (filed_under (msgtype_string (set, Rs)) kids).
Proof.
  induction kids as [|n kids IH]; intros s0 s H; cbn [decode_sets] in H.
  - injection H as <-. split; [constructor|]. intros set _. exists []. rewrite app_nil_r.
    split; [reflexivity|]. constructor.
  - destruct n as [nm sub|t|]; try discriminate.
    destruct (response_set nm) as [set|] eqn:Es; [|discriminate]. cbn [bind] in H.
    destruct (decode_messages e set (solid sub)) as [ms|] eqn:Em; [|discriminate]. cbn [bind] in H.
    apply response_set_iff in Es as [Hin ->]. apply decode_messages_iff in Em.
    destruct (IH _ _ H) as [HF HS]. split.
    + constructor; [|exact HF]. exists set, sub. split; [reflexivity|]. split; [exact Hin|].
      clear - Em. induction Em; constructor; auto. rewrite H. discriminate.
    + intros set' Hin'. destruct (HS set' Hin') as (ms' & E1 & E2).
      rewrite slot_append in E1 by exact Hin'. cbn [filed_under flat_map].
      fold (filed_under (msgtype_string (set', Rs)) kids).
      destruct (msgset_eq_dec set set') as [<-|Hne].
      * exists (ms ++ ms'). rewrite app_assoc. split; [exact E1|]. rewrite str_eqb_refl.
        apply Forall2_app; assumption.
      * exists ms'. rewrite app_nil_r in E1. split; [exact E1|].
        destruct (str_eqb (msgtype_string (set, Rs)) (msgtype_string (set', Rs))) eqn:E; [|exact E2].
        apply str_eqb_eq, msgtype_string_inj in E. congruence.
Qed.

Lemma decode_sets_some e kids : forall s0, Forall (good_set e) kids -> some (decode_sets e kids s0).
Proof.
  induction kids as [|n kids IH]; intros s0 H; cbn [decode_sets]; [discriminate|].
  destruct (Forall_inv H) as (set & sub & -> & Hin & Hd). pose proof (Forall_inv_tail H) as H2.
  assert (Er : response_set (msgtype_string (set, Rs)) = Some set) by (apply response_set_iff; auto).
  cbn [decode_sets]. rewrite Er. cbn [bind].
  assert (Hm : exists ms, decode_messages e set (solid sub) = Some ms).
  { clear - Hd. induction Hd as [|x l Hx Hl [ms IH]]; [exists []; reflexivity|].
    apply some_ex in Hx as [m Hm]. exists (m :: ms). cbn [decode_messages]. rewrite Hm, IH. reflexivity. }
  destruct Hm as [ms ->]. cbn [bind]. apply IH. exact H2.
Qed.

(** ** The round trip *)

Lemma decode_message_kind e set n m : decode_message e set n = Some m ->
  message_type m = (set, Rs) /\ (exists kids, n = Elem (transaction_tag m) kids) /\ reads_as e n m.
Proof.
  unfold decode_message. destruct n as [nm k|t|]; try discriminate.
  cbv beta zeta. intros H.
  destruct set; try discriminate H;
  repeat match type of H with
  | (if str_eqb nm ?x then _ else _) = _ =>
      let E := fresh "E" in
      destruct (str_eqb nm x) eqn:E; [apply str_eqb_eq in E; subst nm | try discriminate H]
  end;
  (match type of H with option_map _ ?u = _ =>
     destruct u eqn:Eu; [|discriminate H] end;
   cbn [option_map] in H; injection H as <-;
   split; [reflexivity|]; split; [eexists; reflexivity|]; cbn [reads_as]; rewrite Eu; reflexivity).
Qed.

Lemma sets_written_good e tbl ns :
  (forall set ms m, In (set, ms) tbl -> In m ms -> message_representable e m /\
     exists t, In t body_sets /\ message_type m = (t, Rs) /\ set = msgtype_string (t, Rs)) ->
  sets_written encodes tbl ns ->
  Forall (good_set e) ns /\
  forall t, In t body_sets ->
    Forall2 (fun m n => decode_message e t n = Some m)
      (flat_map snd (filter (fun p => str_eqb (fst p) (msgtype_string (t, Rs))) tbl))
      (filed_under (msgtype_string (t, Rs)) ns).
Proof.
  intros Hall H. induction H as [|set tbl ns H IH|set ms kids tbl ns Hne HF H IH].
  - split; [constructor|]. intros; constructor.
  - destruct IH as [H1 H2].
    { intros s m x Hi Hx. apply (Hall s m x); [right; exact Hi | exact Hx]. }
    split; [exact H1|]. intros t Ht. cbn [filter fst]. destruct (str_eqb set _); cbn [flat_map snd app]; auto.
  - destruct IH as [H1 H2].
    { intros s m x Hi Hx. apply (Hall s m x); [right; exact Hi | exact Hx]. }
    assert (Hset : exists t, In t body_sets /\ set = msgtype_string (t, Rs)).
    { destruct ms as [|m ms]; [congruence|].
      destruct (Hall set (m :: ms) m) as (_ & t & Ht & _ & ->); [left; auto | left; auto | eauto]. }
    destruct Hset as (t & Ht & ->).
    assert (HD : Forall2 (fun m n => decode_message e t n = Some m) ms kids /\ solid kids = kids).
    { assert (Hms : forall m, In m ms -> message_representable e m /\ message_type m = (t, Rs)).
      { intros m Hm. destruct (Hall _ ms m (or_introl eq_refl) Hm) as (Hr & t' & _ & Et & Es).
        split; [exact Hr|]. apply msgtype_string_inj in Es. congruence. }
      clear - HF Hms. induction HF as [|m n ms kids Hmn HF IH]; [split; [constructor|reflexivity]|].
      destruct IH as [I1 I2]; [intros x Hx; apply Hms; right; exact Hx|].
      destruct (Hms m (or_introl eq_refl)) as [Hr Ht]. unfold encodes in Hmn.
      assert (Hrs : snd (message_type m) = Rs) by (rewrite Ht; reflexivity).
      rewrite (sent_response m Hrs) in Hmn.
      destruct (message_rt e m _ Hr Hrs Hmn) as (k & Ek & Hd). injection Ek as ->.
      rewrite Ht in Hd. cbn [fst] in Hd. split; [constructor; assumption|].
      cbn [solid filter]. f_equal. exact I2. }
    destruct HD as [HD Hsol]. split.
    + constructor; [|exact H1]. exists t, kids. split; [reflexivity|]. split; [exact Ht|]. rewrite Hsol.
      clear - HD. induction HD; constructor; auto. rewrite H. discriminate.
    + intros t' Ht'. cbn [filter fst filed_under flat_map].
      fold (filed_under (msgtype_string (t', Rs)) ns).
      destruct (str_eqb (msgtype_string (t, Rs)) (msgtype_string (t', Rs))) eqn:E; [|exact (H2 t' Ht')].
      apply str_eqb_eq, msgtype_string_inj in E. assert (t = t') as <- by congruence.
      cbn [flat_map snd]. rewrite Hsol. apply Forall2_app; auto.
Qed.

Lemma Forall2_fun {A B} (f : B -> option A) : forall l l' k,
  Forall2 (fun m n => f n = Some m) l k -> Forall2 (fun m n => f n = Some m) l' k -> l = l'.
Proof.
  intros l l' k H. revert l'. induction H as [|? ? ? ? ? ? IH]; intros w H2; inversion H2; subst; auto.
  f_equal; [congruence | auto].
Qed.

Lemma slot_filter s t : In t body_sets ->
  flat_map snd (filter (fun p => str_eqb (fst p) (msgtype_string (t, Rs))) (response_sets s)) = slot t s.
Proof.
  intros H. cbv in H. decompose [or] H; subst; try contradiction; cbv -[app]; apply app_nil_r.
Qed.

Lemma solid_elems ns : Forall (fun n => exists nm k, n = Elem nm k) ns -> solid ns = ns.
Proof.
  induction 1 as [|n ns (nm & k & ->) _ IH]; [reflexivity|]. cbn [solid filter]. f_equal. exact IH.
Qed.

Lemma document_round_trip e r t : response_representable e r -> response_tree r = Some t ->
  decode_ofx e (rs_version r) t = Some r.
Proof.
  intros [Hsr Hmr] E.
  assert (Hacc : slots_acceptable (rs_version r) (response_sets (rs_slots r))).
  { apply (response_tree_iff r). rewrite E. discriminate. }
  destruct (response_tree_spec r t E) as (k & ns & -> & Es & HW).
  assert (Hall : forall set ms m, In (set, ms) (response_sets (rs_slots r)) -> In m ms ->
     message_representable e m /\
     exists t, In t body_sets /\ message_type m = (t, Rs) /\ set = msgtype_string (t, Rs)).
  { intros set ms m Hin Hm. split; [eapply Hmr; eauto|].
    destruct (Hacc set ms m Hin Hm) as (Hb & _ & _).
    assert (Hset : exists t, In t body_sets /\ set = msgtype_string (t, Rs)).
    { clear - Hin. unfold response_sets in Hin. cbn [In] in Hin.
      decompose [or] Hin; try contradiction;
        match goal with H : (?x, _) = (set, _) |- _ => injection H as <- _ end;
        [exists MSignup | exists MBank | exists MCreditCard | exists MLoan | exists MInvStmt
        | exists MInterXfer | exists MWireXfer | exists MBillpay | exists MEmail | exists MSecList
        | exists MPresDir | exists MPresDlv | exists MProf | exists MImage];
        (split; [cbv; tauto | reflexivity]). }
    destruct Hset as (t & Ht & ->). exists t. split; [exact Ht|]. split; [|reflexivity].
    rewrite belongs_in_type in Hb. apply msgtype_string_inj. exact Hb. }
  destruct (sets_written_good e _ _ Hall HW) as [HG HD].
  assert (Hw : negb (null (top_name SignonResponse_ty)) && wf_ty SignonResponse_ty false = true)
    by (vm_compute; reflexivity).
  assert (Hrt : rt_ok e SignonResponse_ty (top_name SignonResponse_ty) (SignonResponse_to (rs_signon r)))
    by (apply representable_rt; [vm_compute; reflexivity | exact Hsr]).
  destruct (top_round e SignonResponse_ty _ _ Hw Hrt Es) as (k' & Ek & Hu).
  injection Ek as <-. clear Hw Hrt Es.
  assert (Hsol : solid ns = ns).
  { apply solid_elems. eapply Forall_impl; [|exact HG]. intros n (x & y & -> & _). eauto. }
  assert (Hsome : exists s, decode_sets e ns no_messages = Some s)
    by (apply some_ex, decode_sets_some; exact HG).
  destruct Hsome as [s Hs].
  assert (Hslots : s = rs_slots r).
  { apply slots_eq. intros set Hset. destruct (decode_sets_spec e ns no_messages s Hs) as [_ HS].
    destruct (HS set Hset) as (ms & E1 & E2). rewrite E1.
    assert (slot set no_messages = []) as -> by (destruct set; reflexivity). cbn [app].
    rewrite <- (slot_filter (rs_slots r) set Hset).
    eapply Forall2_fun; [exact E2 | apply HD; exact Hset]. }
  subst s. unfold decode_ofx. rewrite str_eqb_refl. cbn [negb].
  change (solid (Elem (bs "SIGNONMSGSRSV1") [Elem (bs "SONRS") k] :: ns))
    with (Elem (bs "SIGNONMSGSRSV1") [Elem (bs "SONRS") k] :: solid ns).
  rewrite Hsol. change (str_eqb (bs "SIGNONMSGSRSV1") (msgtype_string (MSignon, Rs))) with true.
  cbn [negb first_elem solid filter null].
  change (Elem (bs "SONRS") k) with (Elem (top_name SignonResponse_ty) k).
  rewrite Hu. cbn [bind]. rewrite Hs. cbn [bind]. rewrite SignonResponse_iso. destruct r; reflexivity.
Qed.
