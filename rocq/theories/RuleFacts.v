(** Proofs for C93: the text of a validation error. *)
From Coq Require Import QArith Lia Bool ZifyBool ZifyNat ZifyN.
From Verif Require Import GoStr GoTime Types Enums EnumTables Records StatusTable Common Messages Codec Document GoStrFacts SpecValid ValidFacts SpecDocument SpecRules.
Close Scope Q_scope.

Definition reports (v : validity) (l : list rule) : Prop :=
  match v with None => Forall fst l | Some t => first_broken l t end.

Lemma broken_not_all l t : first_broken l t -> ~ Forall fst l.
Proof. induction 1 as [P t l H|P t l m H _ IH]; intros F; inversion F; auto. Qed.

Lemma broken_one l t : first_broken l t -> forall t', first_broken l t' -> t' = t.
Proof.
  induction 1 as [P t l H|P t l m H _ IH]; intros t' H'; inversion H'; subst; auto; contradiction.
Qed.

Lemma reports_iff v l : reports v l -> (v = None <-> Forall fst l) /\ forall t, v = Some t <-> first_broken l t.
Proof.
  destruct v as [t|]; cbn [reports]; intros H.
  - split; [split; [discriminate|intros F; destruct (broken_not_all _ _ H F)]|]. intros t'.
    split; [intros E; injection E as <-; exact H|]. intros H'. rewrite (broken_one _ _ H _ H'). reflexivity.
  - split; [tauto|]. intros t. split; [discriminate|]. intros H'. destruct (broken_not_all _ _ H' H).
Qed.

Lemma reports_nil : reports None [].
Proof. constructor. Qed.

Lemma broken_app_l l l' t : first_broken l t -> first_broken (l ++ l') t.
Proof. induction 1; cbn [app]; [apply fb_here|apply fb_later]; assumption. Qed.

Lemma broken_app_r l l' t : Forall fst l -> first_broken l' t -> first_broken (l ++ l') t.
Proof. induction 1 as [|[P m] l Hx _ IH]; intros H; cbn [app]; [exact H|]. apply fb_later; auto. Qed.

Lemma reports_and a b l l' : reports a l -> reports b l' -> reports (a ;;; b) (l ++ l').
Proof.
  destruct a as [t|]; cbn [reports and_valid]; [intros H _; apply broken_app_l; exact H|]. intros H.
  destruct b as [t|]; cbn [reports]; intros H'; [apply broken_app_r; assumption|apply Forall_app; auto].
Qed.

Lemma reports_check b (P : Prop) msg : (b = false <-> P) -> reports (check b msg) [(P, bs msg)].
Proof.
  intros H. unfold check. destruct b; cbn [reports invalid].
  - apply fb_here. intros HP. apply H in HP. discriminate.
  - constructor; [|constructor]. apply H. reflexivity.
Qed.

Lemma reports_check_and b (P : Prop) msg v l : (b = false <-> P) -> reports v l -> reports (check b msg ;;; v) ((P, bs msg) :: l).
Proof. intros H Hv. exact (reports_and _ _ [_] _ (reports_check _ _ _ H) Hv). Qed.

Lemma reports_all A (f : A -> validity) (g : A -> list rule) l : (forall x, reports (f x) (g x)) -> reports (all_valid f l) (flat_map g l).
Proof. intros H. induction l as [|x l IH]; cbn [all_valid flat_map]; [constructor|]. apply reports_and; auto. Qed.

Lemma reports_present A (f : A -> validity) (g : A -> list rule) o : (forall x, reports (f x) (g x)) -> reports (if_present f o) (rules_of g o).
Proof. intros H. destruct o; cbn [if_present rules_of]; [apply H|constructor]. Qed.

Lemma uid_reports u : reports (uid_validity u) (uid_rules u).
Proof. apply reports_check. rewrite <- uid_validity_iff. symmetry. apply check_iff. Qed.

Lemma symbol_reports c : reports (curr_validity c) (symbol_rules c).
Proof. apply reports_check. rewrite <- curr_validity_iff. symmetry. apply check_iff. Qed.

Lemma status_reports s : reports (status_valid s) (status_rules s).
Proof.
  pose proof (status_valid_iff s) as H. unfold status_valid in *. cbv zeta in *. unfold status_rules.
  destruct (_ || _) eqn:E.
  - rewrite !orb_true_iff, !str_eqb_eq in E. assert (Hk := known_code_iff (Status_Code s)).
    destruct (status_lookup _ _) as [[[m sv] k]|].
    + assert (K : known_code (Status_Code s)) by (apply Hk; eauto). revert H. unfold check. destruct (negb _); cbn [reports invalid]; intros H.
      * apply fb_later; [tauto|]. apply fb_later; [exact K|]. apply fb_here. intros X. apply H in X. discriminate.
      * apply Forall_cons; [cbn [fst]; tauto|]. apply Forall_cons; [exact K|]. apply Forall_cons; [|apply Forall_nil]. apply H. reflexivity.
    + cbn [reports invalid]. apply fb_later; [tauto|]. apply fb_here. intros X. apply Hk in X as [v X]. discriminate.
  - rewrite !orb_false_iff, !str_eqb_neq in E. cbn [reports invalid]. apply fb_here. tauto.
Qed.

Lemma country_false s : negb (empty s) && negb (Nat.eqb (length s) 3) = false <-> s = [] \/ length s = 3.
Proof.
  rewrite <- empty_iff. destruct (empty _); cbn [negb andb]; [intuition congruence|]. rewrite negb_false_iff, Nat.eqb_eq. intuition congruence.
Qed.

Lemma signon_reports r : reports (snd (signon_request_valid r)) (signon_rules r).
Proof.
  unfold signon_request_valid, signon_rules, len_between. cbv zeta.
  destruct (_ || _) eqn:E1; [apply fb_here; lia|].
  assert (E2' : Bool.eqb (empty (SignonRequest_UserPass r)) (empty (SignonRequest_UserKey r)) = false <-> (SignonRequest_UserPass r = [] <-> SignonRequest_UserKey r <> [])).
  { rewrite <- empty_iff, <- empty_false. destruct (empty (SignonRequest_UserPass r)), (empty (SignonRequest_UserKey r)); cbn; intuition congruence. }
  destruct (Bool.eqb _ _) eqn:E2.
  { apply fb_later; [lia|]. apply fb_here. intros X. apply E2' in X. discriminate. }
  apply proj1 in E2'. specialize (E2' eq_refl).
  destruct (32 <? length (SignonRequest_UserPass r)) eqn:E3; [do 2 (apply fb_later; [assumption || lia|]); apply fb_here; lia|].
  destruct (64 <? length (SignonRequest_UserKey r)) eqn:E4; [do 3 (apply fb_later; [assumption || lia|]); apply fb_here; lia|].
  assert (E5' : negb (empty (SignonRequest_Language r)) && negb (Nat.eqb (length (SignonRequest_Language r)) 3) = false <->
    (SignonRequest_Language r = [] \/ length (SignonRequest_Language r) = 3)).
  { apply country_false. }
  destruct (negb (empty _) && _) eqn:E5.
  { do 4 (apply fb_later; [assumption || lia|]). apply fb_here. intros X. apply E5' in X. discriminate. }
  apply proj1 in E5'. specialize (E5' eq_refl).
  assert (Ea : forall x y, SignonRequest_AppID (if empty (SignonRequest_Language r) then x else y) = if empty (SignonRequest_Language r) then SignonRequest_AppID x else SignonRequest_AppID y) by (intros; destruct (empty (SignonRequest_Language r)); reflexivity).
  assert (Eb : forall x y, SignonRequest_AppVer (if empty (SignonRequest_Language r) then x else y) = if empty (SignonRequest_Language r) then SignonRequest_AppVer x else SignonRequest_AppVer y) by (intros; destruct (empty (SignonRequest_Language r)); reflexivity).
  rewrite Ea, Eb. cbn [SignonRequest_AppID SignonRequest_AppVer].
  replace (if empty (SignonRequest_Language r) then SignonRequest_AppID r else SignonRequest_AppID r) with (SignonRequest_AppID r) by (destruct (empty (SignonRequest_Language r)); reflexivity).
  replace (if empty (SignonRequest_Language r) then SignonRequest_AppVer r else SignonRequest_AppVer r) with (SignonRequest_AppVer r) by (destruct (empty (SignonRequest_Language r)); reflexivity).
  destruct ((_ <? 1) || (5 <? _)) eqn:E6; [do 5 (apply fb_later; [assumption || lia|]); apply fb_here; lia|].
  destruct ((_ <? 1) || (4 <? _)) eqn:E7; [do 6 (apply fb_later; [assumption || lia|]); apply fb_here; lia|].
  cbn [snd reports]. repeat (apply Forall_cons; [assumption || (cbn [fst]; lia)|]). apply Forall_nil.
Qed.

Lemma signon_response_reports r : reports (signon_response_valid r) (signon_response_rules r).
Proof.
  unfold signon_response_valid, signon_response_rules. pose proof (status_reports (SignonResponse_Status r)) as H.
  destruct (Nat.eqb_spec (length (SignonResponse_Language r)) 3) as [E|E]; cbn [negb].
  - destruct (status_valid _); [apply fb_later; [exact E|exact H]|constructor; [exact E|exact H]].
  - apply fb_here. exact E.
Qed.

Lemma range_false t e lo hi : en_first t = lo -> en_last t = hi -> (negb (enum_valid t e) = false <-> (lo <= e <= hi)%N).
Proof. intros <- <-. rewrite negb_false_iff. apply enum_valid_range. Qed.

Lemma bank_acct_reports b : reports (bank_acct_valid b) (bank_acct_rules b).
Proof.
  apply reports_check_and; [apply empty_false|]. apply reports_check_and; [apply empty_false|].
  apply reports_check. apply range_false; reflexivity.
Qed.

Lemma cc_acct_reports c : reports (cc_acct_valid c) (cc_acct_rules c).
Proof. apply reports_check. apply empty_false. Qed.

Lemma payee_reports p : reports (payee_valid p) (payee_rules p).
Proof.
  do 5 (apply reports_check_and; [apply empty_false|]). apply reports_check_and; [apply country_false|].
  apply reports_check. apply empty_false.
Qed.

Lemma valid_accepted c : is_valid (currency_valid c) = true <-> currency_accepted c.
Proof. rewrite is_valid_iff. apply currency_valid_iff. Qed.

Lemma transaction_reports v t : reports (transaction_valid t v) (transaction_rules v t).
Proof.
  unfold transaction_valid, transaction_rules. cbn [app].
  apply reports_check_and.
  { rewrite orb_false_iff, (range_false _ _ 1%N 18%N) by reflexivity. rewrite N.eqb_neq. reflexivity. }
  apply reports_check_and; [apply date_empty_false|]. apply reports_check_and; [apply empty_false|].
  apply reports_check_and.
  { unfold correction_given, correct_action_ok. rewrite <- empty_false.
    pose proof (enum_valid_range enum_correctAction (Transaction_CorrectAction t)) as H. cbn [en_first en_last enum_correctAction] in H. rewrite <- H.
    destruct (empty _), (enum_valid _ _); cbn; intuition congruence. }
  apply reports_check_and.
  { rewrite <- empty_iff. destruct (empty _), (Transaction_Payee t); cbn; intuition congruence. }
  apply reports_and; [apply reports_present, payee_reports|].
  match goal with |- reports (?m ;;; ?r) (?a :: ?b ++ ?c ++ ?d) => change (a :: b ++ c ++ d) with ([a] ++ b ++ c ++ d); replace ([a] ++ b ++ c ++ d) with ((a :: b ++ c) ++ d) by (cbn [app]; rewrite <- app_assoc; reflexivity) end.
  apply reports_and.
  { destruct (Transaction_BankAcctTo t) as [b|], (Transaction_CCAcctTo t) as [c|]; cbn [rules_of app].
    - apply fb_here. intros [X|X]; discriminate.
    - rewrite app_nil_r. change (bank_acct_valid b) with (None ;;; bank_acct_valid b). apply (reports_and None _ [_]); [|apply bank_acct_reports].
      constructor; [right; reflexivity|constructor].
    - change (cc_acct_valid c) with (None ;;; cc_acct_valid c). apply (reports_and None _ [_]); [|apply cc_acct_reports].
      constructor; [left; reflexivity|constructor].
    - constructor; [left; reflexivity|constructor]. }
  apply reports_check_and.
  { destruct (Transaction_ImageData t) as [|x l]; cbn [length].
    - rewrite andb_false_r. intuition congruence.
    - change (0 <? S (length l)) with true. rewrite andb_true_r, N.ltb_ge. intuition congruence. }
  apply reports_check_and; [rewrite Nat.ltb_ge; reflexivity|]. apply reports_check.
  pose proof valid_accepted as Hv.
  destruct (Transaction_Currency t) as [c|]; [|cbn [andb]; split; [intros _ (x & y & X & _); discriminate|reflexivity]].
  destruct (Transaction_OrigCurrency t) as [o|]; [|rewrite andb_false_r; split; [intros _ (x & y & _ & X & _); discriminate|reflexivity]].
  rewrite andb_false_iff, <- !not_true_iff_false, !Hv. split.
  - intros H (x & y & X & Y & Hx & Hy). injection X as <-. injection Y as <-. tauto.
  - intros H. destruct (is_valid (currency_valid c)) eqn:Ec; [right|left]; intros Ha; apply H.
    + exists c, o. apply Hv in Ec. auto.
    + apply Hv in Ha. congruence.
Qed.

Lemma transaction_list_reports v l : reports (transaction_list_valid l v) (transaction_list_rules v l).
Proof.
  do 2 (apply reports_check_and; [apply date_empty_false|]). apply reports_all. intros t. apply transaction_reports.
Qed.

Lemma pending_reports t : reports (pending_transaction_valid t) (pending_rules t).
Proof.
  apply reports_check_and; [apply range_false; reflexivity|]. apply reports_check_and; [apply date_empty_false|].
  apply reports_check_and; [apply empty_false|]. apply reports_check.
  pose proof (valid_accepted (PendingTransaction_Currency t)). pose proof (valid_accepted (PendingTransaction_OrigCurrency t)).
  destruct (is_valid _), (is_valid _); cbn [andb]; intuition congruence.
Qed.

Lemma balance_reports b : reports (balance_valid b) (balance_rules b).
Proof.
  apply reports_check_and; [rewrite orb_false_iff, !empty_false; reflexivity|]. apply reports_check. apply range_false; reflexivity.
Qed.

Lemma gate_false (b : bool) v w : b && (v <? w)%N = false <-> (b = true -> (w <= v)%N).
Proof. destruct b; cbn [andb]; [rewrite N.ltb_ge|]; intuition congruence. Qed.

Lemma statement_request_reports v r : reports (statement_request_valid r v) (statement_request_rules v r).
Proof.
  apply reports_and; [apply uid_reports|]. do 2 (apply reports_check_and; [apply gate_false|]). apply bank_acct_reports.
Qed.

Lemma statement_reports v r : reports (statement_response_valid r v) (statement_rules v r).
Proof.
  apply reports_and; [apply uid_reports|]. apply reports_and; [apply status_reports|]. apply reports_and; [apply symbol_reports|].
  apply reports_and; [apply bank_acct_reports|]. apply reports_check_and; [apply date_empty_false|]. apply reports_check_and.
  { destruct (StatementResponse_AvailBalAmt r), (StatementResponse_AvailDtAsOf r); cbn; intuition congruence. }
  apply reports_and; [apply reports_present; intros l; apply transaction_list_reports|].
  apply reports_and; [|apply reports_all, balance_reports].
  apply reports_present. intros l. apply reports_check_and; [apply N.ltb_ge|]. apply reports_check_and; [apply date_empty_false|].
  apply reports_all, pending_reports.
Qed.

Lemma message_reports v m : reports (snd (message_valid m v)) (message_rules v m).
Proof.
  destruct m; cbn [message_valid message_rules snd]; try apply uid_reports.
  - apply statement_request_reports.
  - pose proof (uid_reports (ProfileRequest_TrnUID r)) as H. unfold profile_request_valid. destruct (uid_validity _); exact H.
  - apply statement_reports.
  - constructor.
Qed.

Lemma problem_in v l t : reports v l -> (In t (problem v) <-> first_broken l t).
Proof.
  intros H. apply reports_iff in H as [_ H]. rewrite <- H. destruct v as [x|]; cbn; intuition congruence.
Qed.

Lemma problems_in r t : In t (problems r) <->
  first_broken (signon_response_rules (rs_signon r)) t \/
  exists set ms m, In (set, ms) (response_sets (rs_slots r)) /\ In m ms /\ first_broken (message_rules (rs_version r) m) t.
Proof.
  unfold problems. rewrite in_app_iff, (problem_in _ _ _ (signon_response_reports _)), in_flat_map. split.
  - intros [H|(m & Hm & H)]; [left; exact H|right]. apply in_flat_map in Hm as ([set ms] & Hs & Hm). exists set, ms, m.
    apply (problem_in _ _ _ (message_reports _ _)) in H. auto.
  - intros [H|(set & ms & m & Hs & Hm & H)]; [left; exact H|right]. exists m. split; [apply in_flat_map; exists (set, ms); auto|].
    apply (problem_in _ _ _ (message_reports _ _)). exact H.
Qed.

Lemma currency_reports c : reports (currency_valid c) (currency_rules c).
Proof.
  apply reports_check_and; [|apply symbol_reports]. rewrite <- not_true_iff_false, rat_multiple. reflexivity.
Qed.
