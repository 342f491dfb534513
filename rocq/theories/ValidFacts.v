(** Lemmas about the validity checks. *)
From Coq Require Import QArith Lia ZifyBool ZifyNat ZifyN.
From Verif Require Import GoStr GoStrFacts GoNum GoRat GoTime Types Enums EnumTables Records Common
  Messages SpecValid StatusTable DateFacts TypesFacts.
Ltac Zify.zify_post_hook ::= Z.div_mod_to_equations.
Local Open Scope Z_scope.

(** ** Combinators *)

Lemma and_valid_iff a b : (a ;;; b) = None <-> a = None /\ b = None.
Proof. destruct a; cbn; intuition congruence. Qed.

Lemma check_iff c m : check c m = None <-> c = false.
Proof. destruct c; cbn; unfold invalid; intuition congruence. Qed.

Lemma all_valid_iff {A} (f : A -> validity) l :
  all_valid f l = None <-> forall x, In x l -> f x = None.
Proof.
  induction l as [|x l IH]; cbn [all_valid].
  - split; [intros _ x []|reflexivity].
  - rewrite and_valid_iff, IH. cbn [In]. split.
    + intros [H1 H2] y [<-|Hy]; auto.
    + intros H. split; auto.
Qed.

Lemma if_present_iff {A} (f : A -> validity) o :
  if_present f o = None <-> forall x, o = Some x -> f x = None.
Proof.
  destruct o; cbn; split; intros H; auto; intros; congruence.
Qed.

Lemma is_valid_iff v : is_valid v = true <-> v = None.
Proof. destruct v; cbn; intuition congruence. Qed.

Lemma empty_iff s : empty s = true <-> s = [].
Proof. destruct s; cbn; intuition congruence. Qed.

Lemma empty_false s : empty s = false <-> s <> [].
Proof. destruct s; cbn; intuition congruence. Qed.

Lemma uid_validity_iff u : uid_validity u = None <-> uid_ok u.
Proof.
  unfold uid_validity, uid_ok, len_between. rewrite check_iff. unfold uid_valid.
  destruct (_ || _) eqn:E; cbn; split; intros H; try congruence; lia.
Qed.

Lemma curr_validity_iff c : curr_validity c = None <-> symbol_ok c.
Proof.
  unfold curr_validity, symbol_ok, curr_valid. rewrite check_iff, negb_involutive.
  apply str_eqb_neq.
Qed.

Lemma date_empty_false d : date_empty d = false <-> date_given d.
Proof.
  unfold date_empty, date_given. pose proof (date_equal_iff d zero_time) as H.
  change (t_ns zero_time) with 0 in H.
  destruct (date_equal d zero_time); split; intros; try congruence; intuition congruence.
Qed.

(** ** Status *)

Definition table_codes (sev : str) : list Z :=
  map fst (filter (fun e => str_eqb (snd (fst (snd e))) sev) status_meanings).

Lemma table_info : table_codes (bs "INFO") = info_codes.
Proof. vm_compute. reflexivity. Qed.
Lemma table_warn : table_codes (bs "WARN") = warn_codes.
Proof. vm_compute. reflexivity. Qed.
Lemma table_error : table_codes (bs "ERROR") = error_codes.
Proof. vm_compute. reflexivity. Qed.

Lemma status_lookup_in c l v : status_lookup c l = Some v -> In (c, v) l.
Proof.
  induction l as [|[k w] l IH]; cbn; [discriminate|].
  destruct (Z.eqb_spec k c); intros H.
  - injection H as ->. subst. left. reflexivity.
  - right. auto.
Qed.

Lemma status_lookup_nodup c l v : NoDup (map fst l) -> In (c, v) l -> status_lookup c l = Some v.
Proof.
  induction l as [|[k w] l IH]; cbn; intros Hd H; [contradiction|].
  inversion Hd as [|? ? Hn Hd']; subst.
  destruct H as [H|H].
  - injection H as -> ->. rewrite Z.eqb_refl. reflexivity.
  - destruct (Z.eqb_spec k c) as [->|Hne]; [|auto].
    exfalso. apply Hn. apply (in_map fst) in H. exact H.
Qed.

Fixpoint distinct (l : list Z) : bool :=
  match l with
  | [] => true
  | x :: l' => forallb (fun y => negb (x =? y)) l' && distinct l'
  end.

Lemma distinct_nodup l : distinct l = true -> NoDup l.
Proof.
  induction l as [|x l IH]; cbn; intros H; constructor.
  - apply andb_prop in H. destruct H as [H _]. rewrite forallb_forall in H.
    intros Hin. specialize (H _ Hin). rewrite Z.eqb_refl in H. discriminate.
  - apply IH. apply andb_prop in H. tauto.
Qed.

Lemma status_codes_nodup : NoDup (map fst status_meanings).
Proof. apply distinct_nodup. vm_compute. reflexivity. Qed.

Lemma table_codes_iff c sev :
  In c (table_codes sev) <-> exists m k, status_lookup c status_meanings = Some (m, sev, k).
Proof.
  unfold table_codes. rewrite in_map_iff. split.
  - intros ([c' [[m s] k]] & E & H). cbn in E. subst c'.
    apply filter_In in H. destruct H as [H Hs]. cbn in Hs. apply str_eqb_eq in Hs. subst s.
    exists m, k. apply status_lookup_nodup; [apply status_codes_nodup|exact H].
  - intros (m & k & H). apply status_lookup_in in H.
    exists (c, (m, sev, k)). split; [reflexivity|]. apply filter_In. split; [exact H|].
    cbn. apply str_eqb_refl.
Qed.

Lemma table_severities :
  forallb (fun e => let s := snd (fst (snd e)) in
             str_eqb s (bs "INFO") || str_eqb s (bs "WARN") || str_eqb s (bs "ERROR"))
          status_meanings = true.
Proof. vm_compute. reflexivity. Qed.

Lemma known_code_iff c : known_code c <-> exists v, status_lookup c status_meanings = Some v.
Proof.
  unfold known_code. rewrite <- table_info, <- table_warn, <- table_error.
  rewrite !table_codes_iff. split.
  - intros [(m & k & H)|[(m & k & H)|(m & k & H)]]; eexists; exact H.
  - intros ([[m s] k] & H).
    pose proof table_severities as T. rewrite forallb_forall in T.
    specialize (T _ (status_lookup_in _ _ _ H)). cbn [fst snd] in T.
    apply orb_prop in T. destruct T as [T|T]; [apply orb_prop in T; destruct T as [T|T]|];
      apply str_eqb_eq in T; subst s; [left|right;left|right;right]; eauto.
Qed.

Lemma status_valid_iff s : status_valid s = None <-> status_ok s.
Proof.
  unfold status_ok. rewrite <- table_info, <- table_warn, <- table_error, !table_codes_iff.
  assert (G : status_valid s = None <->
    (Status_Severity s = bs "INFO" \/ Status_Severity s = bs "WARN" \/
     Status_Severity s = bs "ERROR") /\
    exists m k, status_lookup (Status_Code s) status_meanings = Some (m, Status_Severity s, k)).
  { unfold status_valid. cbv zeta.
    destruct (_ || _) eqn:E.
    - rewrite !orb_true_iff, !str_eqb_eq in E.
      destruct (status_lookup _ _) as [[[m sv] k]|].
      + rewrite check_iff, negb_false_iff, str_eqb_eq. split.
        * intros ->. split; [tauto|eauto].
        * intros (_ & m' & k' & H). congruence.
      + split; [discriminate|]. intros (_ & m' & k' & H). discriminate.
    - split; [discriminate|]. intros [H _].
      rewrite !orb_false_iff, !str_eqb_neq in E. tauto. }
  rewrite G. split.
  - intros [[H|[H|H]] K]; rewrite H in K; auto.
  - intros [[K H]|[[K H]|[K H]]]; rewrite H; auto.
Qed.

Lemma status_meaning_iff s :
  (exists t, status_code_meaning s = Some t) <-> known_code (Status_Code s).
Proof.
  rewrite known_code_iff. unfold status_code_meaning.
  destruct (status_lookup _ _) as [[[m v] k]|]; split; intros [x H]; try discriminate; eauto.
Qed.

Lemma status_conditions_iff s :
  (exists t, status_code_conditions s = Some t) <-> known_code (Status_Code s).
Proof.
  rewrite known_code_iff. unfold status_code_conditions.
  destruct (status_lookup _ _) as [[[m v] k]|]; split; intros [x H]; try discriminate; eauto.
Qed.

Lemma status_texts c m sev k sv msg : In (c, (m, sev, k)) status_meanings ->
  status_code_meaning (mkStatus c sv msg) = Some m /\
  status_code_conditions (mkStatus c sv msg) = Some k.
Proof.
  intros H. unfold status_code_meaning, status_code_conditions. cbn [Status_Code].
  rewrite (status_lookup_nodup _ _ _ status_codes_nodup H). auto.
Qed.

(** ** Sign-on *)

Lemma signon_valid_iff r : snd (signon_request_valid r) = None <-> signon_ok r.
Proof.
  unfold signon_request_valid, signon_ok, len_between. cbv zeta.
  destruct r as [dt uid pass key gen lang org fid appid appver cuid]; cbn -[Nat.ltb length].
  assert (He : forall s, empty s = (length s =? 0)%nat) by (intros; reflexivity).
  assert (Hn : forall s : str, s = [] <-> length s = 0%nat)
    by (intros s; destruct s; cbn; intuition congruence).
  rewrite !He.
  destruct ((length uid <? 1)%nat || (32 <? length uid)%nat) eqn:E1; cbn -[Nat.ltb length].
  { split; [discriminate|]. lia. }
  destruct (Bool.eqb _ _) eqn:E2; cbn -[Nat.ltb length].
  { split; [discriminate|]. rewrite !Hn. intros H. apply Bool.eqb_prop in E2. lia. }
  apply Bool.eqb_false_iff in E2.
  destruct (32 <? length pass)%nat eqn:E3; cbn -[Nat.ltb length].
  { split; [discriminate|]. lia. }
  destruct (64 <? length key)%nat eqn:E4; cbn -[Nat.ltb length].
  { split; [discriminate|]. lia. }
  destruct (_ && _) eqn:E5; cbn -[Nat.ltb length].
  { split; [discriminate|]. rewrite !Hn. lia. }
  rewrite !Hn. destruct (length lang =? 0)%nat eqn:E6; cbn -[Nat.ltb length].
  all: match goal with |- context [if ?b then _ else _] => destruct b eqn:E7 end;
    cbn -[Nat.ltb length]; [split; [discriminate|]; lia|].
  all: match goal with |- context [if ?b then _ else _] => destruct b eqn:E8 end;
    cbn -[Nat.ltb length]; [split; [discriminate|]; lia|].
  all: split; [intros _|reflexivity]; lia.
Qed.

Lemma signon_valid_after r r' : signon_request_valid r = (r', None) ->
  same_but_language r' r /\
  SignonRequest_Language r' =
    (match SignonRequest_Language r with [] => bs "ENG" | l => l end) /\
  signon_request_valid r' = (r', None).
Proof.
  intros H.
  assert (Hr : r' = match SignonRequest_Language r with
                    | [] => mkSignonRequest (SignonRequest_DtClient r) (SignonRequest_UserID r)
                        (SignonRequest_UserPass r) (SignonRequest_UserKey r)
                        (SignonRequest_GenUserKey r) (bs "ENG") (SignonRequest_Org r)
                        (SignonRequest_Fid r) (SignonRequest_AppID r) (SignonRequest_AppVer r)
                        (SignonRequest_ClientUID r)
                    | _ => r end).
  { revert H. unfold signon_request_valid. cbv zeta.
    destruct (_ || _); [intros; discriminate|].
    destruct (Bool.eqb _ _); [intros; discriminate|].
    destruct (_ <? _)%nat; [intros; discriminate|].
    destruct (_ <? _)%nat; [intros; discriminate|].
    destruct (negb (empty (SignonRequest_Language r)) && _); [intros; discriminate|].
    destruct (_ || _); [intros; discriminate|].
    destruct (_ || _); [intros; discriminate|].
    intros H. injection H as <-.
    destruct (SignonRequest_Language r); reflexivity. }
  pose proof (proj1 (signon_valid_iff r)) as Hok. rewrite H in Hok. specialize (Hok eq_refl).
  assert (Hs : same_but_language r' r).
  { rewrite Hr. destruct (SignonRequest_Language r); repeat split; reflexivity. }
  assert (Hl : SignonRequest_Language r' =
               match SignonRequest_Language r with [] => bs "ENG" | l => l end).
  { rewrite Hr. destruct (SignonRequest_Language r) eqn:E; [reflexivity|exact E]. }
  split; [exact Hs|]. split; [exact Hl|].
  assert (Hok' : signon_ok r').
  { destruct Hs as (S1 & S2 & S3 & S4 & S5 & S6 & S7 & S8 & S9 & S10).
    unfold signon_ok in *. rewrite S2, S3, S4, S8, S9, Hl.
    destruct Hok as (K1 & K2 & K3 & K4 & K5 & K6 & K7).
    repeat (split; [assumption|]). split; [|split; assumption].
    right. destruct (SignonRequest_Language r); [reflexivity|].
    destruct K5 as [K5|K5]; [discriminate|exact K5]. }
  apply signon_valid_iff in Hok'.
  destruct (signon_request_valid r') as [r2 v] eqn:E2. cbn in Hok'. subst v.
  f_equal.
  revert E2. unfold signon_request_valid. cbv zeta.
  destruct (_ || _); [intros; discriminate|].
  destruct (Bool.eqb _ _); [intros; discriminate|].
  destruct (_ <? _)%nat; [intros; discriminate|].
  destruct (_ <? _)%nat; [intros; discriminate|].
  destruct (negb (empty (SignonRequest_Language r')) && _); [intros; discriminate|].
  destruct (_ || _); [intros; discriminate|].
  destruct (_ || _); [intros; discriminate|].
  intros E. injection E as <-.
  assert (En : empty (SignonRequest_Language r') = false)
    by (rewrite Hl; destruct (SignonRequest_Language r); reflexivity).
  rewrite En. reflexivity.
Qed.

(** ** Accounts and currencies *)

Lemma enum_valid_range t e : enum_valid t e = true <-> (en_first t <= e <= en_last t)%N.
Proof. unfold enum_valid. lia. Qed.

Lemma enum_valid_range_false t e :
  negb (enum_valid t e) = false <-> (en_first t <= e <= en_last t)%N.
Proof. rewrite negb_false_iff. apply enum_valid_range. Qed.

Lemma bank_acct_valid_iff b : bank_acct_valid b = None <-> bank_acct_ok b.
Proof.
  unfold bank_acct_valid, bank_acct_ok.
  rewrite !and_valid_iff, !check_iff, !empty_false, enum_valid_range_false. reflexivity.
Qed.

Lemma cc_acct_valid_iff c : cc_acct_valid c = None <-> cc_acct_ok c.
Proof. unfold cc_acct_valid, cc_acct_ok. rewrite check_iff, empty_false. reflexivity. Qed.

Lemma big_int64_zero z : big_int64 z = 0 <-> z mod 2 ^ 64 = 0.
Proof.
  unfold big_int64, int64_wrap.
  assert (H64 : 2 ^ 64 = 18446744073709551616) by reflexivity.
  assert (H63 : 2 ^ 63 = 9223372036854775808) by reflexivity.
  rewrite H64, H63. clear H64 H63.
  destruct (z <? 0) eqn:E; repeat match goal with |- context [if ?b then _ else _] =>
    let E := fresh in destruct b eqn:E end; lia.
Qed.

Lemma rat_multiple q : (rat_is_int q && (big_int64 (Qnum (Qred q)) =? 0)) = true <->
  exists k, (q == inject_Z (k * 2 ^ 64))%Q.
Proof.
  rewrite andb_true_iff. unfold rat_is_int. rewrite Pos.eqb_eq, Z.eqb_eq, big_int64_zero. split.
  - intros [Hd Hm]. exists (Qnum (Qred q) / 2 ^ 64).
    rewrite <- (Qred_correct q) at 1. unfold Qeq, inject_Z. cbn [Qnum Qden]. rewrite Hd.
    rewrite !Z.mul_1_r. apply Z_div_exact_2 in Hm; [|reflexivity].
    rewrite Z.mul_comm. exact Hm.
  - intros [k Hk]. apply Qred_complete in Hk. rewrite Hk.
    assert (E : Qred (inject_Z (k * 2 ^ 64)) = inject_Z (k * 2 ^ 64)).
    { unfold Qred, inject_Z. pose proof (Z.ggcd_gcd (k * 2 ^ 64) 1) as Hg.
      pose proof (Z.ggcd_correct_divisors (k * 2 ^ 64) 1) as Hc.
      destruct (Z.ggcd (k * 2 ^ 64) 1) as [g [a b]]. cbn [fst] in Hg.
      rewrite Z.gcd_1_r in Hg. subst g. destruct Hc as [Ha Hb].
      rewrite Z.mul_1_l in Ha, Hb. cbn [snd fst]. rewrite <- Ha, <- Hb. reflexivity. }
    rewrite E. split; [reflexivity|]. cbn [Qnum inject_Z]. apply Z_mod_mult.
Qed.

Lemma currency_valid_iff c : currency_valid c = None <-> currency_accepted c.
Proof.
  unfold currency_valid, currency_accepted.
  rewrite and_valid_iff, check_iff, curr_validity_iff, <- rat_multiple.
  destruct (_ && _); intuition congruence.
Qed.

Lemma currency_accepted_small c : Z.abs (Qnum (Qred (Currency_CurRate c))) < 2 ^ 64 ->
  (currency_accepted c <-> currency_ok c).
Proof.
  intros Hs. unfold currency_accepted, currency_ok.
  assert (E : (exists k, (Currency_CurRate c == inject_Z (k * 2 ^ 64))%Q) <->
              (Currency_CurRate c == 0)%Q).
  { rewrite <- rat_multiple. split.
    - rewrite andb_true_iff. unfold rat_is_int. rewrite Pos.eqb_eq, Z.eqb_eq, big_int64_zero.
      intros [Hd Hm]. assert (Hz : Qnum (Qred (Currency_CurRate c)) = 0).
      { change (2 ^ 64) with 18446744073709551616 in *. lia. }
      rewrite <- (Qred_correct (Currency_CurRate c)).
      unfold Qeq. cbn [Qnum Qden]. rewrite Hz. reflexivity.
    - intros H. apply rat_multiple. exists 0. rewrite H. reflexivity. }
  rewrite E. reflexivity.
Qed.

Lemma currency_valid_small c : Z.abs (Qnum (Qred (Currency_CurRate c))) < 2 ^ 64 ->
  (currency_valid c = None <-> currency_ok c).
Proof. intros H. rewrite currency_valid_iff. apply currency_accepted_small. exact H. Qed.

(** ** Bank messages *)

Lemma payee_valid_iff p : payee_valid p = None <-> payee_ok p.
Proof.
  unfold payee_valid, payee_ok. rewrite !and_valid_iff, !check_iff, !empty_false.
  assert (E : negb (empty (Payee_Country p)) && negb (length (Payee_Country p) =? 3)%nat = false <->
              (Payee_Country p = [] \/ length (Payee_Country p) = 3%nat)).
  { rewrite <- empty_iff. destruct (empty _); cbn; [intuition|].
    rewrite negb_false_iff, Nat.eqb_eq. intuition congruence. }
  rewrite E. reflexivity.
Qed.

Lemma is_some_iff {A} (o : option A) : is_some o = true <-> o <> None.
Proof. destruct o; cbn; intuition congruence. Qed.

Lemma transaction_valid_iff t v : transaction_valid t v = None <->
  transaction_accepted (OfxVersion220 <=? v)%N t.
Proof.
  unfold transaction_valid, transaction_accepted, transaction_ok_but_correction,
    correction_given, correct_action_ok.
  rewrite !and_valid_iff, !check_iff, if_present_iff, empty_false, date_empty_false.
  rewrite orb_false_iff, enum_valid_range_false.
  rewrite (Nat.ltb_ge 2). rewrite N.eqb_neq.
  assert (E1 : (negb (empty (Transaction_CorrectFiTID t)) &&
                enum_valid enum_correctAction (Transaction_CorrectAction t)) = false <->
               ~ (Transaction_CorrectFiTID t <> [] /\ (1 <= Transaction_CorrectAction t <= 2)%N)).
  { rewrite <- empty_false. pose proof (enum_valid_range enum_correctAction (Transaction_CorrectAction t)) as H.
    cbn [en_first en_last enum_correctAction] in H. rewrite <- H. clear H.
    destruct (empty _), (enum_valid _ _); cbn; intuition congruence. }
  rewrite E1.
  assert (E2 : negb (empty (Transaction_Name t)) && is_some (Transaction_Payee t) = false <->
               ~ (Transaction_Name t <> [] /\ Transaction_Payee t <> None)).
  { rewrite <- empty_false, <- is_some_iff.
    destruct (empty (Transaction_Name t)), (is_some (Transaction_Payee t)); cbn; intuition congruence. }
  rewrite E2.
  assert (E3 : (forall x, Transaction_Payee t = Some x -> payee_valid x = None) <->
               (forall x, Transaction_Payee t = Some x -> payee_ok x)).
  { split; intros H x Hx; apply payee_valid_iff; auto. }
  rewrite E3.
  assert (E4 : (match Transaction_BankAcctTo t, Transaction_CCAcctTo t with
     | Some b, None => bank_acct_valid b
     | Some _, Some _ =>
       invalid "Only one of Transaction.BankAcctTo and CCAcctTo may be specified"
     | None, Some c => cc_acct_valid c
     | None, None => None
     end) = None <->
     (~ (Transaction_BankAcctTo t <> None /\ Transaction_CCAcctTo t <> None) /\
      (forall b, Transaction_BankAcctTo t = Some b -> bank_acct_ok b) /\
      (forall c, Transaction_CCAcctTo t = Some c -> cc_acct_ok c))).
  { destruct (Transaction_BankAcctTo t) as [b|], (Transaction_CCAcctTo t) as [c|].
    - split; [discriminate|]. intros [H _]. exfalso. apply H. split; discriminate.
    - rewrite bank_acct_valid_iff. split.
      + intros H. split; [intros [_ H']; congruence|]. split; [congruence|discriminate].
      + intros (_ & H & _). apply H. reflexivity.
    - rewrite cc_acct_valid_iff. split.
      + intros H. split; [intros [H' _]; congruence|]. split; [discriminate|congruence].
      + intros (_ & _ & H). apply H. reflexivity.
    - split; [|reflexivity]. intros _. split; [intros [H _]; congruence|].
      split; discriminate. }
  rewrite E4.
  assert (E5 : (v <? OfxVersion220)%N && (0 <? length (Transaction_ImageData t))%nat = false <->
               (Transaction_ImageData t <> [] -> (OfxVersion220 <=? v)%N = true)).
  { rewrite N.leb_antisym.
    destruct (Transaction_ImageData t); cbn [length]; destruct (v <? OfxVersion220)%N; cbn;
      intuition congruence. }
  rewrite E5.
  assert (E6 : (match Transaction_Currency t with
               | Some c => is_valid (currency_valid c) | None => false end) &&
              (match Transaction_OrigCurrency t with
               | Some c => is_valid (currency_valid c) | None => false end) = false <->
     (forall c o, Transaction_Currency t = Some c -> Transaction_OrigCurrency t = Some o ->
        ~ (currency_accepted c /\ currency_accepted o))).
  { destruct (Transaction_Currency t) as [c|], (Transaction_OrigCurrency t) as [o|]; cbn.
    - rewrite andb_false_iff, <- !not_true_iff_false, !is_valid_iff, !currency_valid_iff. split.
      + intros H c' o' Hc Ho. injection Hc as <-. injection Ho as <-. intros [A B]. destruct H; auto.
      + intros H. specialize (H c o eq_refl eq_refl).
        destruct (is_valid (currency_valid c)) eqn:Ec.
        * apply is_valid_iff, currency_valid_iff in Ec. right. intros Ho. apply H. split; assumption.
        * left. intros Hc. apply currency_valid_iff, is_valid_iff in Hc. congruence.
    - rewrite andb_false_r. split; [intros _ ? ? _ H; discriminate|reflexivity].
    - split; [intros _ ? ? H; discriminate|reflexivity].
    - split; [intros _ ? ? H; discriminate|reflexivity]. }
  rewrite E6.
  cbn [en_first en_last enum_trnType]. change TrnTypeHold with 17%N.
  clear. split.
  - intros (H1 & H2 & H3 & H4 & H5 & H6 & (H7 & H8 & H9) & H10 & H11 & H12).
    split; [|exact H4]. repeat (split; [assumption|]). assumption.
  - intros [(H1 & H2 & H3 & H5 & H6 & H7 & H8 & H9 & H10 & H11 & H12) H4].
    repeat (split; [assumption|]). split; [|split; [assumption|split; assumption]].
    split; [assumption|split; assumption].
Qed.

Lemma pending_valid_iff t : pending_transaction_valid t = None <-> pending_ok currency_accepted t.
Proof.
  unfold pending_transaction_valid, pending_ok.
  rewrite !and_valid_iff, !check_iff, empty_false, date_empty_false, enum_valid_range_false.
  rewrite <- !currency_valid_iff, <- !is_valid_iff.
  cbn [en_first en_last enum_trnType].
  destruct (is_valid (currency_valid (PendingTransaction_Currency t))),
    (is_valid (currency_valid (PendingTransaction_OrigCurrency t))); cbn; intuition congruence.
Qed.

Lemma balance_valid_iff b : balance_valid b = None <-> balance_ok b.
Proof.
  unfold balance_valid, balance_ok.
  rewrite !and_valid_iff, !check_iff, orb_false_iff, !empty_false, enum_valid_range_false.
  cbn [en_first en_last enum_balType]. tauto.
Qed.

Lemma statement_valid_iff r v : statement_response_valid r v = None <->
  statement_ok (transaction_accepted (OfxVersion220 <=? v)%N) currency_accepted
    (OfxVersion220 <=? v)%N r.
Proof.
  unfold statement_response_valid, statement_ok.
  rewrite !and_valid_iff, !check_iff, !if_present_iff, uid_validity_iff, status_valid_iff,
    curr_validity_iff, bank_acct_valid_iff, date_empty_false, all_valid_iff.
  assert (E1 : negb (Bool.eqb (negb (is_some (StatementResponse_AvailBalAmt r)))
                 (negb (is_some (StatementResponse_AvailDtAsOf r)))) = false <->
     (StatementResponse_AvailBalAmt r = None <-> StatementResponse_AvailDtAsOf r = None)).
  { destruct (StatementResponse_AvailBalAmt r), (StatementResponse_AvailDtAsOf r); cbn;
      intuition congruence. }
  rewrite E1.
  assert (E2 : (forall x, StatementResponse_BankTranList r = Some x ->
                  transaction_list_valid x v = None) <->
    (forall l, StatementResponse_BankTranList r = Some l ->
       date_given (TransactionList_DtStart l) /\ date_given (TransactionList_DtEnd l) /\
       (forall t, In t (TransactionList_Transactions l) ->
          transaction_accepted (OfxVersion220 <=? v)%N t))).
  { split; intros H l Hl; specialize (H l Hl); revert H; unfold transaction_list_valid;
      rewrite !and_valid_iff, !check_iff, !date_empty_false, all_valid_iff;
      intros (H1 & H2 & H3); (split; [exact H1|]; split; [exact H2|]);
      intros t Ht; apply transaction_valid_iff; auto. }
  rewrite E2.
  assert (E3 : (forall x, StatementResponse_BankTranListP r = Some x ->
       (check (v <? OfxVersion220)%N "StatementResponse.BankTranListP invalid for OFX < 2.2" ;;;
        pending_transaction_list_valid x) = None) <->
     (forall l, StatementResponse_BankTranListP r = Some l ->
      (OfxVersion220 <=? v)%N = true /\ date_given (PendingTransactionList_DtAsOf l) /\
      (forall t, In t (PendingTransactionList_Transactions l) -> pending_ok currency_accepted t))).
  { split; intros H l Hl; specialize (H l Hl); revert H; unfold pending_transaction_list_valid;
      rewrite !and_valid_iff, !check_iff, !date_empty_false, all_valid_iff, N.leb_antisym;
      intros (H1 & H2 & H3).
    - split; [rewrite H1; reflexivity|]. split; [exact H2|].
      intros t Ht. apply pending_valid_iff. auto.
    - split; [apply negb_true_iff in H1; exact H1|]. split; [exact H2|].
      intros t Ht. apply pending_valid_iff. auto. }
  rewrite E3.
  assert (E4 : (forall x, In x (StatementResponse_BalList r) -> balance_valid x = None) <->
               (forall b, In b (StatementResponse_BalList r) -> balance_ok b)).
  { split; intros H b Hb; apply balance_valid_iff; auto. }
  rewrite E4. reflexivity.
Qed.

(** ** Versions *)

Lemma statement_request_valid_iff r v : statement_request_valid r v = None <->
  uid_ok (StatementRequest_TrnUID r) /\
  (StatementRequest_IncludePending r = true -> (OfxVersion220 <= v)%N) /\
  (StatementRequest_IncTranImg r = true -> (OfxVersion210 <= v)%N) /\
  bank_acct_ok (StatementRequest_BankAcctFrom r).
Proof.
  unfold statement_request_valid.
  rewrite !and_valid_iff, !check_iff, uid_validity_iff, bank_acct_valid_iff.
  assert (E : forall b (x y : N), b && (x <? y)%N = false <-> (b = true -> (y <= x)%N)).
  { intros [] x y; cbn; rewrite ?N.ltb_ge; intuition congruence. }
  rewrite !E. reflexivity.
Qed.

Lemma signon_response_valid_iff r : signon_response_valid r = None <-> signon_response_ok r.
Proof.
  unfold signon_response_valid, signon_response_ok.
  destruct (Nat.eqb_spec (length (SignonResponse_Language r)) 3) as [E|E]; cbn [negb].
  - rewrite status_valid_iff. tauto.
  - split; [discriminate | intros [H _]; contradiction].
Qed.

Lemma message_valid_iff m v : snd (message_valid m v) = None <-> message_ok v m.
Proof.
  destruct m; cbn [message_valid message_ok snd];
    try apply uid_validity_iff; try apply statement_request_valid_iff; try apply statement_valid_iff.
  - unfold profile_request_valid. rewrite <- uid_validity_iff.
    destruct (uid_validity (ProfileRequest_TrnUID r)); cbn [snd]; split; congruence.
  - tauto.
Qed.

Lemma transaction_accepted_mono v v' t : (v <= v')%N ->
  transaction_accepted (OfxVersion220 <=? v)%N t -> transaction_accepted (OfxVersion220 <=? v')%N t.
Proof.
  intros Hv [(H1 & H2 & H3 & H4 & H5 & H6 & H7 & H8 & H9 & H10) Hc].
  split; [|exact Hc]. repeat (split; [assumption|]). split; [|exact H10].
  intros Hi. specialize (H9 Hi). lia.
Qed.

Lemma message_valid_mono m v v' : (v <= v')%N ->
  snd (message_valid m v) = None -> snd (message_valid m v') = None.
Proof.
  intros Hv. destruct m; cbn [message_valid snd]; try (intros H; exact H).
  - rewrite !statement_request_valid_iff. intros (H1 & H2 & H3 & H4).
    split; [exact H1|]. split; [|split; [|exact H4]]; intros H;
      [specialize (H2 H)|specialize (H3 H)]; lia.
  - rewrite !statement_valid_iff. unfold statement_ok.
    intros (H1 & H2 & H3 & H4 & H5 & H6 & H7 & H8 & H9).
    repeat (split; [assumption|]). split; [|split; [|assumption]].
    + intros l Hl. destruct (H7 l Hl) as (K1 & K2 & K3). repeat (split; [assumption|]).
      intros t Ht. apply (transaction_accepted_mono v); auto.
    + intros l Hl. destruct (H8 l Hl) as (K1 & K2). split; [lia|exact K2].
Qed.

(** The gates, one by one. *)
Lemma gate_pending r v : StatementRequest_IncludePending r = true -> (v < OfxVersion220)%N ->
  statement_request_valid r v <> None.
Proof.
  intros Hp Hv H. apply statement_request_valid_iff in H. destruct H as (_ & H & _).
  specialize (H Hp). lia.
Qed.

Lemma gate_tran_img r v : StatementRequest_IncTranImg r = true -> (v < OfxVersion210)%N ->
  statement_request_valid r v <> None.
Proof.
  intros Hp Hv H. apply statement_request_valid_iff in H. destruct H as (_ & _ & H & _).
  specialize (H Hp). lia.
Qed.

Lemma gate_pending_list r v : StatementResponse_BankTranListP r <> None -> (v < OfxVersion220)%N ->
  statement_response_valid r v <> None.
Proof.
  intros Hp Hv H. apply statement_valid_iff in H.
  destruct H as (_ & _ & _ & _ & _ & _ & _ & H & _).
  destruct (StatementResponse_BankTranListP r) as [l|]; [|congruence].
  destruct (H l eq_refl) as [H' _]. lia.
Qed.

Lemma gate_image_data t v : Transaction_ImageData t <> [] -> (v < OfxVersion220)%N ->
  transaction_valid t v <> None.
Proof.
  intros Hp Hv H. apply transaction_valid_iff in H.
  destruct H as [(_ & _ & _ & _ & _ & _ & _ & _ & H & _) _].
  specialize (H Hp). lia.
Qed.

(** Without a correction the check is the specified one. *)
Lemma transaction_valid_no_correction t v : Transaction_CorrectFiTID t = [] ->
  (transaction_valid t v = None <->
   transaction_ok_but_correction currency_accepted (OfxVersion220 <=? v)%N t).
Proof.
  intros H. rewrite transaction_valid_iff. unfold transaction_accepted, correction_given.
  rewrite H. split; [intros [A _]; exact A|]. intros A. split; [exact A|].
  intros [B _]. apply B. reflexivity.
Qed.

(** ** Profile requests *)

Lemma profile_request_after r r' : profile_request_valid r = (r', None) ->
  ProfileRequest_ClientRouting r' = bs "NONE" /\
  ProfileRequest_TrnUID r' = ProfileRequest_TrnUID r /\
  ProfileRequest_CltCookie r' = ProfileRequest_CltCookie r /\
  ProfileRequest_TAN r' = ProfileRequest_TAN r /\
  ProfileRequest_DtProfUp r' = ProfileRequest_DtProfUp r.
Proof.
  unfold profile_request_valid. destruct (uid_validity _); intros H; [discriminate|].
  injection H as <-. cbn. auto.
Qed.
