(** When a client sends something. *)
From Coq Require Import QArith Lia Bool ZifyBool ZifyNat ZifyN.
From Verif Require Import GoStr SpecStr GoStrFacts GoNum GoNumFacts GoTime Types Enums EnumTables EnumFacts Records Common Messages Codec Document SpecDocument Wire Url Clients
  SpecClients ClientFacts Accessors SpecValid ValidFacts SpecUrl UrlFacts SetsFacts FilingFacts TreeFacts.
Close Scope Q_scope.

Lemma no_parse_sends w c q tr o q' : bc_HTTPClient (basic_of c) = None -> runs (request_no_parse w c q) tr (o, q') ->
  (tr <> [] <-> request_marshal (set_client_fields (w_now w) c q) <> None /\ exists host path, names (rq_url q) host path).
Proof.
  intros Hc H. apply no_parse_runs in H as [(E & -> & _)|(b & tr1 & o1 & E & H1 & H2)].
  { rewrite E. split; [intros X; contradiction|]. intros [X _]. contradiction. }
  assert (H3 : tr1 <> [] <-> exists host path, names (rq_url q) host path).
  { destruct (str_eqb (firstn 8 (rq_url q)) (bs "https://")) eqn:Eh.
    - assert (Hu : https (rq_url q)).
      { apply str_eqb_eq in Eh. exists (skipn 8 (rq_url q)). rewrite <- (firstn_skipn 8 (rq_url q)) at 1. rewrite Eh. reflexivity. }
      rewrite <- (parse_url_iff _ Hu). eapply raw_accepts; [exact Hu| |exact H1]. intros bc hc -> X. cbn [basic_of] in Hc. congruence.
    - assert (Hu : ~ https (rq_url q)) by (intros [s Es]; rewrite Es in Eh; discriminate Eh).
      apply raw_refused in H1 as [-> _]; [|exact Hu]. split; [intros X; contradiction|]. intros (h & p & X). apply names_https in X. contradiction. }
  rewrite E. destruct H2 as [(-> & _)|(bc & rp & tr2 & _ & Hf & _ & _ & -> & _)].
  - rewrite H3. split; [|tauto]. intros X. split; [discriminate|exact X].
  - assert (Hne : tr1 <> []). { intros ->. apply raw_request_runs in H1 as [H1 _]. destruct H1 as [(rp' & -> & _ & X)|(_ & err & _ & [X|X])]; [discriminate X|congruence|].
      rewrite X in Hf. discriminate Hf. }
    split; [|intros _ X; apply app_eq_nil in X; tauto]. intros _. split; [discriminate|]. apply H3. exact Hne.
Qed.

Lemma uid_length r uid : random_uid r = Some uid -> uid_ok uid.
Proof.
  unfold random_uid. destruct r as [|b n]; [discriminate|]. destruct (negb _); [discriminate|]. cbv zeta.
  assert (F : forall k s, length (fmt_hex (firstn k s)) <= 2 * k) by (intros k s; rewrite fmt_hex_length, firstn_length; lia).
  repeat match goal with |- context [fmt_hex (firstn ?k ?s)] => let y := fresh "y" in pose proof (F k s); set (y := fmt_hex (firstn k s)) in *; clearbody y end.
  intros X. injection X as <-. unfold uid_ok, len_between. repeat (rewrite !app_length; cbn [length]). lia.
Qed.

Lemma marshal_tree q : request_marshal q <> None <-> signon_ok (rq_signon q) /\ slots_acceptable (rq_version q) (request_sets (rq_slots q)).
Proof.
  rewrite <- request_tree_iff. unfold request_marshal. destruct (request_tree q) as [[t q0]|]; cbn [fst snd].
  - split; intros _ X; discriminate X.
  - split; intros X; exfalso; apply X; reflexivity.
Qed.

Lemma marshal_trees q : request_marshal q <> None <-> request_tree q <> None.
Proof.
  unfold request_marshal. destruct (request_tree q) as [[t q0]|]; cbn [fst snd].
  - split; intros _ X; discriminate X.
  - split; intros X; exfalso; apply X; reflexivity.
Qed.

(** A profile request in a document of its own. *)
Lemma profile_acceptable v uid routing dt : uid_ok uid ->
  slots_acceptable v (request_sets (mkSlots [] [] [] [] [] [] [] [] [] [] [] [] [MsgProfileRequest (mkProfileRequest uid [] [] routing dt)] [])).
Proof.
  intros Hu set ms M H1 H2. unfold request_sets in H1. cbn [In sl_signup sl_bank sl_creditcard sl_loan sl_invstmt sl_interxfer sl_wirexfer sl_billpay
      sl_email sl_seclist sl_presdir sl_presdlv sl_prof sl_image] in H1.
  repeat destruct H1 as [H1|H1]; try contradiction; injection H1 as <- <-; cbn [In] in H2; try contradiction.
  destruct H2 as [<-|[]]. split; [reflexivity|split; [exact Hu|exact I]].
Qed.
