(** What fmt's %+v prints for accounts can be told apart. *)
From Coq Require Import QArith Lia Bool List ZifyBool ZifyN.
From Verif Require Import GoStr SpecStr SpecNum SpecDate GoStrFacts GoNum GoNumFacts GoRat RatFacts GoTime Types TypesFacts Enums EnumTables EnumFacts EnumTextFacts
  Records Codec CodecFacts SpecCodec DocumentFacts DateFacts SpecDateText DateTextFacts RereadFacts AcctText SpecAcctText.
Close Scope Q_scope.

Lemma at_space a b x y : spaceless a -> spaceless b -> a ++ " "%char :: x = b ++ " "%char :: y -> a = b /\ x = y.
Proof.
  revert b. induction a as [|c a IH]; intros [|d b] Ha Hb H; cbn [app] in H.
  - injection H as ->. auto.
  - injection H as <- _. destruct Hb. left. reflexivity.
  - injection H as -> _. destruct Ha. left. reflexivity.
  - injection H as <- H. destruct (IH b) as [-> ->]; [intros F; apply Ha; right; exact F|intros F; apply Hb; right; exact F|exact H|auto].
Qed.

(** Values of a kind [T] that are told apart when a space follows. *)
Definition delimited (T : str -> Prop) : Prop := forall a b x y, T a -> T b -> a ++ " "%char :: x = b ++ " "%char :: y -> a = b /\ x = y.

Lemma spaceless_delimited : delimited spaceless.
Proof. intros a b x y. apply at_space. Qed.

Lemma field_said T n v v' p l p' l' r r' : delimited T -> T v -> T v' ->
  fields_text ((n, v) :: p :: l) ++ r = fields_text ((n, v') :: p' :: l') ++ r' ->
  v = v' /\ fields_text (p :: l) ++ r = fields_text (p' :: l') ++ r'.
Proof.
  intros HT Hv Hv' H. change (fields_text ((n, v) :: p :: l)) with (n ++ ":"%char :: v ++ " "%char :: fields_text (p :: l)) in H.
  change (fields_text ((n, v') :: p' :: l')) with (n ++ ":"%char :: v' ++ " "%char :: fields_text (p' :: l')) in H.
  rewrite <- !app_assoc in H. apply app_inv_head in H. cbn [app] in H. injection H as H. rewrite <- !app_assoc in H. cbn [app] in H.
  exact (HT _ _ _ _ Hv Hv' H).
Qed.

Lemma struct_said n fs fs' p l p' l' r r' :
  fields_text ((n, plus_v fs) :: p :: l) ++ r = fields_text ((n, plus_v fs') :: p' :: l') ++ r' ->
  fields_text fs ++ "}"%char :: " "%char :: (fields_text (p :: l) ++ r) = fields_text fs' ++ "}"%char :: " "%char :: (fields_text (p' :: l') ++ r').
Proof.
  intros H. change (fields_text ((n, plus_v fs) :: p :: l)) with (n ++ ":"%char :: plus_v fs ++ " "%char :: fields_text (p :: l)) in H.
  change (fields_text ((n, plus_v fs') :: p' :: l')) with (n ++ ":"%char :: plus_v fs' ++ " "%char :: fields_text (p' :: l')) in H.
  rewrite <- !app_assoc in H. apply app_inv_head in H. unfold plus_v in H. cbn [app] in H.
  injection H as H. rewrite <- !app_assoc in H. cbn [app] in H. exact H.
Qed.

Lemma last_said n v v' x y : spaceless v -> spaceless v' ->
  fields_text [(n, v)] ++ "}"%char :: " "%char :: x = fields_text [(n, v')] ++ "}"%char :: " "%char :: y -> v = v' /\ x = y.
Proof.
  intros Hv Hv' H. cbn [fields_text] in H. rewrite <- !app_assoc in H. apply app_inv_head in H. cbn [app] in H. injection H as H.
  assert (G : forall u, spaceless u -> spaceless (u ++ ["}"%char])).
  { intros u Hu F. apply in_app_or in F as [F|[F|[]]]; [exact (Hu F)|discriminate F]. }
  destruct (at_space (v ++ ["}"%char]) (v' ++ ["}"%char]) x y (G _ Hv) (G _ Hv')) as [E1 E2].
  - rewrite <- !app_assoc. exact H.
  - apply app_inv_tail in E1. auto.
Qed.

Lemma plus_v_said fs fs' : plus_v fs = plus_v fs' -> fields_text fs ++ ["}"%char] = fields_text fs' ++ ["}"%char].
Proof. unfold plus_v. generalize (fields_text fs ++ ["}"%char]), (fields_text fs' ++ ["}"%char]). intros a b H. injection H as H. exact H. Qed.

Lemma end_said n v v' : fields_text [(n, v)] ++ ["}"%char] = fields_text [(n, v')] ++ ["}"%char] -> v = v'.
Proof.
  intros H. cbn [fields_text] in H. rewrite <- !app_assoc in H. apply app_inv_head in H. cbn [app] in H. injection H as H.
  apply app_inv_tail in H. exact H.
Qed.

(** ** Names *)

Lemma name_said n m m' p l p' l' r r' : spaceless_name m -> spaceless_name m' ->
  fields_text ((n, xml_name_text m) :: p :: l) ++ r = fields_text ((n, xml_name_text m') :: p' :: l') ++ r' ->
  m = m' /\ fields_text (p :: l) ++ r = fields_text (p' :: l') ++ r'.
Proof.
  intros [H1 H2] [H1' H2'] H. unfold xml_name_text in H. apply struct_said in H.
  apply (field_said spaceless) in H as [E1 H]; [|exact spaceless_delimited|exact H1|exact H1'].
  apply last_said in H as [E2 H]; [|exact H2|exact H2'].
  split; [destruct m, m'; cbn [fst snd] in *; congruence|exact H].
Qed.

(** ** Values *)

Lemma bool_spaceless b : spaceless (bool_text b).
Proof. destruct b; cbv; intuition discriminate. Qed.

Lemma bool_text_inj b b' : bool_text b = bool_text b' -> b = b'.
Proof. destruct b, b'; (reflexivity || discriminate). Qed.

Lemma plain_spaceless s : forallb plain s = true -> spaceless s.
Proof. intros H F. rewrite forallb_forall in H. discriminate (H _ F). Qed.

Lemma amount_spaceless x : spaceless (amount_string x).
Proof. destruct (amount_string_decimal x) as (nf & q & _ & _ & H & _). apply plain_spaceless, H. Qed.

Lemma amount_text_inj x y : amount_ok x -> amount_ok y -> amount_string x = amount_string y -> x = y.
Proof.
  intros Hx Hy E.
  assert (Rx : leaf_rt (mkEnv (fun _ => ([], 0%Z)) (fun _ => true)) LAmount x) by (apply leaf_ok_rt; [discriminate|exact Hx]).
  assert (Ry : leaf_rt (mkEnv (fun _ => ([], 0%Z)) (fun _ => true)) LAmount y) by (apply leaf_ok_rt; [discriminate|exact Hy]).
  unfold leaf_rt in *. cbn [leaf_marshal leaf_unmarshal] in *. rewrite E in Rx. congruence.
Qed.

Lemma date_spaceless e t : date_ok e t -> spaceless (date_string t).
Proof.
  intros (c & off & n & -> & Hc & _ & Hb & _ & Hn). rewrite date_string_shape. cbn [t_off t_zone]. fold (printed off n).
  pose proof (date_text_chars c _ (format_ms_text c off n Hc)) as Hf.
  destruct (printed_parts off n Hb) as (h & m & sh & sm & Hi & _ & Hm & E).
  assert (Hz : forallb zone_char (name_suffix n) = true).
  { assert (Hu : Forall (fun c => 65 <= code c <= 90)%N n).
    { destruct Hn as [[Hu _]|[-> _]]; [exact Hu|constructor]. }
    destruct n as [|x n]; [reflexivity|]. cbn [name_suffix forallb]. apply andb_true_iff. split; [reflexivity|].
    change (forallb zone_char (x :: n) = true). apply forallb_forall. intros d Hd. rewrite Forall_forall in Hu. specialize (Hu d Hd).
    unfold zone_char. assert (U : is_upper d = true) by (unfold is_upper; lia). rewrite U, orb_true_r. reflexivity. }
  assert (Hs : forallb zone_char sh = true).
  { destruct Hi as (sg & ds & v & -> & Hne & Hd & Hs). apply digits_iff in Hd as [Hd _]. rewrite forallb_app. apply andb_true_iff. split.
    - destruct Hs as [[-> _]|[[-> _]|[-> _]]]; reflexivity.
    - apply digits_zone_chars. exact Hd. }
  intros F. assert (P : forall s, forallb zone_char s = true -> ~ In " "%char s).
  { intros s Hz' F'. rewrite forallb_forall in Hz'. discriminate (Hz' _ F'). }
  change (In " "%char (format_ms (mkTime (instant c off) off n) ++ "["%char :: printed off n ++ ["]"%char])) in F || idtac.
  apply in_app_or in F as [F|[F|F]]; [exact (P _ Hf F)|discriminate F|].
  apply in_app_or in F as [F|[F|[]]]; [|discriminate F].
  rewrite E in F. apply in_app_or in F as [F|F]; [exact (P _ Hs F)|]. apply in_app_or in F as [F|F]; [exact (P _ (plain_minutes m sm Hm) F)|exact (P _ Hz F)].
Qed.

Lemma date_text_back e t : date_ok e t -> date_unmarshal e (date_string t) = Some t.
Proof.
  intros (c & off & n & -> & Hc & Hd & Ho & Hs & Hn). destruct Hn as [Hn | (-> & Hz & Hl)].
  - pose proof (date_round_trip_named e c off n [] [] Hc Hd Ho Hs Hn ws_nil) as R.
    rewrite app_nil_r, app_nil_l in R. exact R.
  - destruct (date_round_trip_unnamed e c off [] [] Hc Hd Ho Hs Hz ws_nil) as (nm & R & Hnm).
    rewrite app_nil_r, app_nil_l in R. rewrite (Hnm Hl) in R. exact R.
Qed.

Lemma date_text_inj e t t' : date_ok e t -> date_ok e t' -> date_string t = date_string t' -> t = t'.
Proof. intros Hx Hy E. apply date_text_back in Hx. apply date_text_back in Hy. rewrite E, Hy in Hx. injection Hx as <-. reflexivity. Qed.

(** ** Enumerations *)

Definition text_of_enum (t : enum) (s : str) : Prop := exists v, s = enum_text t v.

(** The enumerations that occur here. *)
Definition acct_enums : list enum := [enum_acctType; enum_acctClassification; enum_svcStatus; enum_usProductType; enum_holderType].

Lemma acct_enums_all t : In t acct_enums -> In t all_enums.
Proof. intros H. cbn [In acct_enums] in H. unfold all_enums. repeat destruct H as [<-|H]; [..|destruct H]; repeat first [left; reflexivity | right]. Qed.

Lemma names_check : forallb (fun t => forallb (fun n => negb (existsb (Ascii.eqb " ") n) && negb (str_eqb n (bs "invalid"))) (en_names t)) acct_enums = true.
Proof. vm_compute. reflexivity. Qed.

Lemma enum_text_cases t v : In t acct_enums ->
  (spaceless (enum_text t v) /\ enum_text t v <> bs "invalid") \/
  enum_text t v = bs "invalid " ++ en_type t ++ bs " (" ++ fmt_d (Z.of_N v) ++ bs ")".
Proof.
  intros Hin. pose proof (all_enums_wf t (acct_enums_all t Hin)) as Hw. destruct (enum_valid t v) eqn:Ev.
  - left. destruct (enum_string_valid t v Hw Ev) as (n & Hs & Hi & _). unfold enum_text. rewrite Hs.
    pose proof names_check as C. rewrite forallb_forall in C. specialize (C t Hin). rewrite forallb_forall in C. specialize (C n Hi).
    apply andb_true_iff in C as [C1 C2]. apply negb_true_iff in C1. apply negb_true_iff in C2. split.
    + intros F. assert (X : existsb (Ascii.eqb " ") n = true) by (apply existsb_exists; exists " "%char; split; [exact F|apply Ascii.eqb_refl]). congruence.
    + intros F. subst n. rewrite str_eqb_refl in C2. discriminate C2.
  - right. unfold enum_text, enum_string. rewrite Ev. reflexivity.
Qed.

Lemma enum_text_inj t v w : In t acct_enums -> enum_text t v = enum_text t w -> v = w.
Proof.
  intros Hin E. apply acct_enums_all in Hin. apply (enum_string_all_inj t Hin). unfold enum_text in E.
  assert (S : forall v, exists s, enum_string t v = Some s).
  { intros u. destruct (enum_valid t u) eqn:Eu.
    - destruct (enum_string_valid t u (all_enums_wf t Hin) Eu) as (n & Hs & _). eauto.
    - unfold enum_string. rewrite Eu. eauto. }
  destruct (S v) as [a Ea], (S w) as [b Eb]. rewrite Ea, Eb in *. congruence.
Qed.

Lemma fmt_d_no_paren z : ~ In ")"%char (fmt_d z).
Proof.
  destruct (fmt_d_integer z) as (sg & ds & v & -> & _ & Hd & Hs). apply digits_iff in Hd as [Hd _]. rewrite in_app_iff. intros [F|F].
  - destruct Hs as [[-> _]|[[-> _]|[-> _]]]; cbn in F; intuition discriminate.
  - rewrite forallb_forall in Hd. discriminate (Hd _ F).
Qed.

Lemma at_char (c : ascii) (a b x y : str) : ~ In c a -> ~ In c b -> a ++ c :: x = b ++ c :: y -> a = b /\ x = y.
Proof.
  revert b. induction a as [|d a IH]; intros [|d' b] Ha Hb H; cbn [app] in H.
  - injection H as ->. auto.
  - injection H as <- _. destruct Hb. left. reflexivity.
  - injection H as -> _. destruct Ha. left. reflexivity.
  - injection H as <- H. destruct (IH b) as [-> ->]; [intros F; apply Ha; right; exact F|intros F; apply Hb; right; exact F|exact H|auto].
Qed.

Lemma enum_delimited t : In t acct_enums -> delimited (text_of_enum t).
Proof.
  intros Hin a b x y [v ->] [w ->] H.
  assert (I : spaceless (bs "invalid")) by (cbv; intuition discriminate).
  assert (D : forall v (u z z' : str), spaceless (enum_text t v) -> enum_text t v <> bs "invalid" ->
    enum_text t v ++ " "%char :: z = (bs "invalid " ++ u) ++ z' -> False).
  { clear. intros v u z z' H1 H2 H. change (bs "invalid ") with (bs "invalid" ++ [" "%char]) in H. rewrite <- !app_assoc in H. cbn [app] in H.
    apply at_space in H as [H _]; [exact (H2 H)|exact H1|cbv; intuition discriminate]. }
  destruct (enum_text_cases t v Hin) as [[S1 N1]|E1], (enum_text_cases t w Hin) as [[S2 N2]|E2].
  - exact (at_space _ _ _ _ S1 S2 H).
  - exfalso. rewrite E2 in H. exact (D v _ _ _ S1 N1 H).
  - exfalso. rewrite E1 in H. exact (D w _ _ _ S2 N2 (eq_sym H)).
  - rewrite E1, E2 in *. rewrite <- !app_assoc in H. apply app_inv_head in H. apply app_inv_head in H. apply app_inv_head in H.
    change (bs ")" ++ " "%char :: x) with (")"%char :: " "%char :: x) in H. change (bs ")" ++ " "%char :: y) with (")"%char :: " "%char :: y) in H.
    apply at_char in H as [H1 H2]; [|apply fmt_d_no_paren|apply fmt_d_no_paren]. rewrite H1. injection H2 as <-. auto.
Qed.

(** ** Accounts *)

Ltac an_enum := unfold acct_enums; repeat first [left; reflexivity | right].

Theorem cc_info_told n m c n' m' c' :
  spaceless_name n -> spaceless_name m -> cc_acct_spaceless (CCAcctInfo_CCAcctFrom c) ->
  spaceless_name n' -> spaceless_name m' -> cc_acct_spaceless (CCAcctInfo_CCAcctFrom c') ->
  cc_info_text n m c = cc_info_text n' m' c' -> n = n' /\ m = m' /\ c = c'.
Proof.
  intros Hn Hm [Ha Hk] Hn' Hm' [Ha' Hk'] H. unfold cc_info_text in H. apply plus_v_said in H.
  apply name_said in H as [E1 H]; [|assumption|assumption]. unfold cc_acct_text in H. apply struct_said in H.
  apply name_said in H as [E2 H]; [|assumption|assumption].
  apply (field_said spaceless) in H as [E3 H]; [|exact spaceless_delimited|assumption|assumption].
  apply last_said in H as [E4 H]; [|assumption|assumption].
  do 3 (apply (field_said spaceless) in H as [? H]; [|exact spaceless_delimited|apply bool_spaceless|apply bool_spaceless]).
  apply (field_said (text_of_enum enum_acctClassification)) in H as [E5 H]; [|apply enum_delimited; an_enum|eexists; reflexivity|eexists; reflexivity].
  apply end_said in H.
  apply enum_text_inj in E5; [|an_enum]. apply enum_text_inj in H; [|an_enum].
  repeat match goal with E : bool_text _ = bool_text _ |- _ => apply bool_text_inj in E end.
  split; [exact E1|]. split; [exact E2|].
  destruct c as [[? ?] ? ? ? ? ?], c' as [[? ?] ? ? ? ? ?]. cbn in *. congruence.
Qed.

Theorem inv_info_told n m c n' m' c' :
  spaceless_name n -> spaceless_name m -> inv_acct_spaceless (InvAcctInfo_InvAcctFrom c) ->
  spaceless_name n' -> spaceless_name m' -> inv_acct_spaceless (InvAcctInfo_InvAcctFrom c') ->
  inv_info_text n m c = inv_info_text n' m' c' -> n = n' /\ m = m' /\ c = c'.
Proof.
  intros Hn Hm [Ha Hk] Hn' Hm' [Ha' Hk'] H. unfold inv_info_text in H. apply plus_v_said in H.
  apply name_said in H as [E1 H]; [|assumption|assumption]. unfold inv_acct_text in H. apply struct_said in H.
  apply name_said in H as [E2 H]; [|assumption|assumption].
  apply (field_said spaceless) in H as [E3 H]; [|exact spaceless_delimited|assumption|assumption].
  apply last_said in H as [E4 H]; [|assumption|assumption].
  apply (field_said (text_of_enum enum_usProductType)) in H as [E5 H]; [|apply enum_delimited; an_enum|eexists; reflexivity|eexists; reflexivity].
  apply (field_said spaceless) in H as [E6 H]; [|exact spaceless_delimited|apply bool_spaceless|apply bool_spaceless].
  apply (field_said (text_of_enum enum_svcStatus)) in H as [E7 H]; [|apply enum_delimited; an_enum|eexists; reflexivity|eexists; reflexivity].
  apply (field_said (text_of_enum enum_holderType)) in H as [E8 H]; [|apply enum_delimited; an_enum|eexists; reflexivity|eexists; reflexivity].
  apply end_said in H. apply bool_text_inj in E6.
  apply enum_text_inj in E5; [|an_enum]. apply enum_text_inj in E7; [|an_enum]. apply enum_text_inj in E8; [|an_enum].
  split; [exact E1|]. split; [exact E2|].
  destruct c as [[? ?] ? ? ? ? ?], c' as [[? ?] ? ? ? ? ?]. cbn in *. congruence.
Qed.

Theorem bank_info_told e n m c n' m' c' :
  spaceless_name n -> spaceless_name m -> bank_acct_spaceless (BankAcctInfo_BankAcctFrom c) ->
  spaceless_name n' -> spaceless_name m' -> bank_acct_spaceless (BankAcctInfo_BankAcctFrom c') ->
  date_ok e (BankAcctInfo_MaturityDate c) -> date_ok e (BankAcctInfo_MaturityDate c') ->
  amount_ok (BankAcctInfo_MaturityAmt c) -> amount_ok (BankAcctInfo_MinBalReq c) -> amount_ok (BankAcctInfo_OverdraftLimit c) ->
  amount_ok (BankAcctInfo_MaturityAmt c') -> amount_ok (BankAcctInfo_MinBalReq c') -> amount_ok (BankAcctInfo_OverdraftLimit c') ->
  bank_info_text n m c = bank_info_text n' m' c' -> n = n' /\ m = m' /\ c = c'.
Proof.
  intros Hn Hm (Ha & Hb & Hc & Hk) Hn' Hm' (Ha' & Hb' & Hc' & Hk') D D' A1 A2 A3 A1' A2' A3' H. unfold bank_info_text in H. apply plus_v_said in H.
  apply name_said in H as [E1 H]; [|assumption|assumption]. unfold bank_acct_text in H. apply struct_said in H.
  apply name_said in H as [E2 H]; [|assumption|assumption].
  do 3 (apply (field_said spaceless) in H as [? H]; [|exact spaceless_delimited|assumption|assumption]).
  apply (field_said (text_of_enum enum_acctType)) in H as [E5 H]; [|apply enum_delimited; an_enum|eexists; reflexivity|eexists; reflexivity].
  apply last_said in H as [E4 H]; [|assumption|assumption].
  do 3 (apply (field_said spaceless) in H as [? H]; [|exact spaceless_delimited|apply bool_spaceless|apply bool_spaceless]).
  apply (field_said spaceless) in H as [E6 H]; [|exact spaceless_delimited|apply (date_spaceless e); assumption|apply (date_spaceless e); assumption].
  apply (field_said spaceless) in H as [E7 H]; [|exact spaceless_delimited|apply amount_spaceless|apply amount_spaceless].
  apply (field_said spaceless) in H as [E8 H]; [|exact spaceless_delimited|apply amount_spaceless|apply amount_spaceless].
  apply (field_said (text_of_enum enum_acctClassification)) in H as [E9 H]; [|apply enum_delimited; an_enum|eexists; reflexivity|eexists; reflexivity].
  apply (field_said spaceless) in H as [E10 H]; [|exact spaceless_delimited|apply amount_spaceless|apply amount_spaceless].
  apply end_said in H.
  apply enum_text_inj in E5; [|an_enum]. apply enum_text_inj in E9; [|an_enum]. apply enum_text_inj in H; [|an_enum].
  apply amount_text_inj in E7; [|assumption|assumption]. apply amount_text_inj in E8; [|assumption|assumption]. apply amount_text_inj in E10; [|assumption|assumption].
  apply (date_text_inj e) in E6; [|assumption|assumption].
  repeat match goal with E : bool_text _ = bool_text _ |- _ => apply bool_text_inj in E end.
  split; [exact E1|]. split; [exact E2|].
  destruct c as [[? ? ? ? ?] ? ? ? ? ? ? ? ? ?], c' as [[? ? ? ? ?] ? ? ? ? ? ? ? ? ?]. cbn in *. congruence.
Qed.

(** ** Every field is shown *)

Lemma fields_shown n v l : In (n, v) l -> exists u w, fields_text l = u ++ n ++ ":"%char :: v ++ w.
Proof.
  induction l as [|[n' v'] l IH]; intros H; [destruct H|]. destruct H as [[= -> ->]|H].
  - destruct l as [|p l].
    + exists [], []. cbn [fields_text app]. rewrite app_nil_r. reflexivity.
    + exists [], (" "%char :: fields_text (p :: l)). reflexivity.
  - destruct (IH H) as (u & w & E). destruct l as [|p l]; [destruct H|].
    exists (n' ++ ":"%char :: v' ++ [" "%char] ++ u), w.
    change (fields_text ((n', v') :: p :: l)) with (n' ++ ":"%char :: v' ++ " "%char :: fields_text (p :: l)). rewrite E.
    repeat first [rewrite <- app_assoc | progress cbn [app]]. reflexivity.
Qed.

Lemma plus_v_shows n v l : In (n, v) l -> shows (plus_v l) n v.
Proof.
  intros H. destruct (fields_shown n v l H) as (u & w & E). exists ("{"%char :: u), (w ++ ["}"%char]). unfold plus_v. rewrite E.
  repeat first [rewrite <- app_assoc | progress cbn [app]]. reflexivity.
Qed.

Lemma shows_inner s n v m x : shows s n v -> shows v m x -> shows s m x.
Proof.
  intros (u & w & ->) (u' & w' & ->). exists (u ++ n ++ ":"%char :: u'), (w' ++ w). repeat first [rewrite <- app_assoc | progress cbn [app]]. reflexivity.
Qed.
