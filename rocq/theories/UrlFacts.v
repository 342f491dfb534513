(** URLs: what net/url accepts and what it makes of it. *)
From Coq Require Import QArith Lia Bool ZifyBool ZifyNat ZifyN.
From Verif Require Import GoStr SpecStr GoStrFacts MarkupTags GoNum SpecNum GoNumFacts Types Records Common Codec Document Wire Url SpecUrl Clients SpecClients
  ClientFacts.
Close Scope Q_scope.

(** ** Bytes *)

Lemma in_text c s : existsb (Ascii.eqb c) s = true <-> In c s.
Proof.
  rewrite existsb_exists. split.
  - intros (x & Hx & E). apply Ascii.eqb_eq in E. subst. exact Hx.
  - intros H. exists c. split; [exact H|]. apply Ascii.eqb_refl.
Qed.

Lemma alnum_byte c : alnum c = existsb (Ascii.eqb c) (letters ++ figures).
Proof. destruct c as [[] [] [] [] [] [] [] []]; vm_compute; reflexivity. Qed.

Lemma host_escape_byte c : host_escape c = false <-> host_byte c.
Proof.
  unfold host_escape, host_byte, mem. rewrite alnum_byte, <- existsb_app, <- app_assoc, <- in_text, negb_false_iff. reflexivity.
Qed.

Lemma user_byte_ok c : alnum c || mem c (bs "-._:~!$&'()*+,;=%@") = true <-> user_byte c.
Proof. unfold user_byte, mem. rewrite alnum_byte, <- existsb_app, <- app_assoc, <- in_text. reflexivity. Qed.

Lemma figure_digit c : is_digit c = true <-> In c figures.
Proof.
  assert (E : is_digit c = existsb (Ascii.eqb c) figures) by (destruct c as [[] [] [] [] [] [] [] []]; vm_compute; reflexivity).
  rewrite <- in_text, E. reflexivity.
Qed.

Lemma figures_digits s : forallb is_digit s = true <-> Forall (fun c => In c figures) s.
Proof.
  rewrite forallb_forall, Forall_forall. split; intros H c Hc; apply figure_digit, H, Hc.
Qed.

Lemma hex_digit_of c v : hex_digit c v -> is_hex c = true /\ unhex c = N.of_nat v /\ (v < 16)%nat.
Proof.
  intros [H|H]; (do 16 (destruct v as [|v]; [injection H as <-; vm_compute; repeat split; repeat constructor|])); destruct v; discriminate H.
Qed.

Lemma hex_digit_is c : is_hex c = true -> hex_digit c (N.to_nat (unhex c)).
Proof.
  destruct c as [[] [] [] [] [] [] [] []]; intros H; try discriminate H; clear H; first [left; reflexivity | right; reflexivity].
Qed.

(** ** Percent-encoding *)

Definition plain_of (m : mode) : ascii -> Prop :=
  match m with MPlain => any | _ => fun c => host_byte c \/ beyond_ascii c end.
Definition coded_of (m : mode) : ascii -> Prop :=
  match m with
  | MPlain => any
  | MHost => fun c => c = "%"%char \/ beyond_ascii c
  | MZone => fun c => c = "%"%char \/ c = " "%char \/ host_byte c
  end.

Lemma plain_bad m c : (match m with MPlain => false | _ => (code c <? 128)%N && host_escape c end) = false <-> plain_of m c.
Proof.
  assert (H : (code c <? 128)%N && host_escape c = false <-> host_byte c \/ beyond_ascii c).
  { rewrite andb_false_iff, host_escape_byte, N.ltb_ge. unfold beyond_ascii. tauto. }
  destruct m; cbn [plain_of]; [|exact H|exact H]. split; [intros _; exact I|reflexivity].
Qed.

Lemma percent_pair a b x y : hex_digit a x -> hex_digit b y ->
  (str_eqb [a; b] (bs "25") = true <-> chr (N.of_nat (16 * x + y)) = "%"%char).
Proof.
  intros Ha Hb. rewrite str_eqb_eq. pose proof (hex_digit_of _ _ Ha) as (_ & Ea & Lx). pose proof (hex_digit_of _ _ Hb) as (_ & Eb & Ly). split.
  - intros E. injection E as -> ->. change (unhex "2") with 2%N in Ea. change (unhex "5") with 5%N in Eb.
    replace x with 2%nat by lia. replace y with 5%nat by lia. reflexivity.
  - intros E. assert (N.of_nat (16 * x + y) = 37%N) by (rewrite <- (code_chr (N.of_nat (16 * x + y))), E by lia; reflexivity).
    assert (x = 2%nat /\ y = 5%nat) as [-> ->] by lia.
    destruct Ha as [Ha|Ha]; injection Ha as <-; destruct Hb as [Hb|Hb]; injection Hb as <-; reflexivity.
Qed.

Lemma coded_bad m a b x y : hex_digit a x -> hex_digit b y ->
  (match m with
   | MPlain => false
   | MHost => (unhex a <? 8)%N && negb (str_eqb [a; b] (bs "25"))
   | MZone => negb (str_eqb [a; b] (bs "25")) && negb (Ascii.eqb (chr (unhex a * 16 + unhex b)) " ") && host_escape (chr (unhex a * 16 + unhex b))
   end) = false <-> coded_of m (chr (N.of_nat (16 * x + y))).
Proof.
  intros Ha Hb. pose proof (percent_pair _ _ _ _ Ha Hb) as Hp. pose proof (hex_digit_of _ _ Ha) as (_ & Ea & Lx).
  pose proof (hex_digit_of _ _ Hb) as (_ & Eb & Ly). rewrite Ea, Eb.
  replace (N.of_nat x * 16 + N.of_nat y)%N with (N.of_nat (16 * x + y)) by lia.
  destruct m; cbn [coded_of].
  - split; [intros _; exact I|reflexivity].
  - rewrite andb_false_iff, negb_false_iff, Hp, N.ltb_ge. unfold beyond_ascii. rewrite code_chr by lia.
    assert (8 <= N.of_nat x <-> 128 <= N.of_nat (16 * x + y))%N by lia. tauto.
  - rewrite !andb_false_iff, !negb_false_iff, Hp, Ascii.eqb_eq, host_escape_byte. tauto.
Qed.

Lemma unescape_escaped m : forall s t, unescape m s = Some t <-> escaped (plain_of m) (coded_of m) s t.
Proof.
  intros s t. split.
  - revert t. induction s as [s IH] using (well_founded_induction (Wf_nat.well_founded_ltof _ (@length ascii))). unfold Wf_nat.ltof in IH.
    intros t H. destruct s as [|c r]; [injection H as <-; constructor|]. cbn [unescape] in H.
    destruct (Ascii.eqb c "%") eqn:Ec.
    + apply Ascii.eqb_eq in Ec. subst c. destruct r as [|a [|b r]]; [discriminate|discriminate|].
      destruct (is_hex a && is_hex b) eqn:Eh; cbn [negb] in H; [|discriminate].
      apply andb_true_iff in Eh as [Ea Eb]. apply hex_digit_is in Ea, Eb. cbv zeta in H.
      match type of H with (if ?b then _ else _) = _ => destruct b eqn:E end; [discriminate|].
      apply (coded_bad m _ _ _ _ Ea Eb) in E. destruct (unescape m r) as [t'|] eqn:Er; [|discriminate].
      injection H as <-. apply IH in Er; [|cbn; lia].
      replace (unhex a * 16 + unhex b)%N with (N.of_nat (16 * N.to_nat (unhex a) + N.to_nat (unhex b))) by lia.
      apply esc_coded; assumption.
    + cbv zeta in H. match type of H with (if ?b then _ else _) = _ => destruct b eqn:E end; [discriminate|].
      apply plain_bad in E. destruct (unescape m r) as [t'|] eqn:Er; [|discriminate]. injection H as <-.
      apply IH in Er; [|cbn; lia]. apply esc_plain; [|assumption|assumption]. intros ->. rewrite Ascii.eqb_refl in Ec. discriminate.
  - intros H. induction H as [|c s t Hc Hp H IH|a b x y s t Ha Hb Hc H IH].
    + reflexivity.
    + cbn [unescape]. destruct (Ascii.eqb c "%") eqn:Ec; [apply Ascii.eqb_eq in Ec; contradiction|]. cbv zeta.
      apply plain_bad in Hp. rewrite Hp, IH. reflexivity.
    + cbn [unescape]. rewrite Ascii.eqb_refl. pose proof (hex_digit_of _ _ Ha) as (Ea & Ua & _). pose proof (hex_digit_of _ _ Hb) as (Eb & Ub & _).
      rewrite Ea, Eb. cbn [andb negb]. cbv zeta. apply (coded_bad m _ _ _ _ Ha Hb) in Hc. rewrite Hc, IH. cbn [option_map].
      do 3 f_equal. rewrite Ua, Ub. lia.
Qed.

Lemma escaped_plain s t : unescape MPlain s = Some t <-> escaped any any s t.
Proof. apply unescape_escaped. Qed.

Lemma escaped_name s t : unescape MHost s = Some t <-> name_text s t.
Proof. apply unescape_escaped. Qed.

Lemma escaped_zone s t : unescape MZone s = Some t <-> zone_text s t.
Proof. apply unescape_escaped. Qed.

(** ** Cutting *)

Lemma cut_parts c s : exists r, s = fst (cut c s) ++ r /\ ~ In c (fst (cut c s)) /\ starts c r /\ snd (cut c s) = skipn 1 r.
Proof.
  induction s as [|d s (r & E & Hn & Hs & Er)]; [exists []; repeat split; [intros []|left; reflexivity]|].
  cbn [cut]. destruct (Ascii.eqb c d) eqn:Ec.
  - apply Ascii.eqb_eq in Ec. subst d. exists (c :: s). repeat split; [intros []|right; eauto].
  - exists r. cbn [fst snd app]. repeat split; [congruence| |exact Hs|exact Er].
    intros [->|H]; [rewrite Ascii.eqb_refl in Ec; discriminate|exact (Hn H)].
Qed.

Lemma cut_app c a r : ~ In c a -> starts c r -> cut c (a ++ r) = (a, skipn 1 r).
Proof.
  intros Hn Hs. induction a as [|d a IH].
  - destruct Hs as [->|[r' ->]]; [reflexivity|]. cbn. rewrite Ascii.eqb_refl. reflexivity.
  - cbn [app cut]. destruct (Ascii.eqb c d) eqn:Ec; [apply Ascii.eqb_eq in Ec; subst; exfalso; apply Hn; left; reflexivity|].
    rewrite IH by (intros H; apply Hn; right; exact H). reflexivity.
Qed.

Lemma cut_last_none c s : cut_last c s = None <-> ~ In c s.
Proof.
  induction s as [|d s IH]; [split; [intros _ []|reflexivity]|]. cbn [cut_last]. destruct (cut_last c s) as [[a b]|] eqn:E.
  - split; [discriminate|]. intros H. exfalso. apply H. right. rewrite (cut_last_app _ _ _ _ E). apply in_or_app. right. left. reflexivity.
  - destruct (Ascii.eqb c d) eqn:Ec.
    + apply Ascii.eqb_eq in Ec. subst. split; [discriminate|]. intros H. exfalso. apply H. left. reflexivity.
    + split; [|reflexivity]. intros _ [->|H]; [rewrite Ascii.eqb_refl in Ec; discriminate|]. apply IH in H; auto.
Qed.

Lemma cut_last_some c s a b : cut_last c s = Some (a, b) <-> s = a ++ c :: b /\ ~ In c b.
Proof.
  split.
  - intros H. split; [exact (cut_last_app _ _ _ _ H)|]. revert a b H. induction s as [|d s IH]; [discriminate|]. intros a b H. cbn [cut_last] in H.
    destruct (cut_last c s) as [[x y]|] eqn:E; [injection H as <- <-; exact (IH _ _ eq_refl)|].
    destruct (Ascii.eqb c d); [|discriminate]. injection H as <- <-. apply cut_last_none, E.
  - intros [-> Hn]. induction a as [|d a IH]; cbn [app cut_last].
    + apply cut_last_none in Hn. rewrite Hn, Ascii.eqb_refl. reflexivity.
    + rewrite IH. reflexivity.
Qed.

Lemma index_of_at p a z : (forall x y, a ++ p ++ z = x ++ p ++ y -> length a <= length x) -> index_of p (a ++ p ++ z) = Some (length a).
Proof.
  intros H. destruct (index_of_found p _ a z eq_refl) as [n E]. destruct (index_of_some _ _ _ E) as (r & Er & Hl).
  apply H in Er as Hle. rewrite firstn_length in Hle. destruct (PeanoNat.Nat.eq_dec n (length a)) as [->|Hne]; [exact E|].
  exfalso. apply (index_of_first _ _ _ E (length a) z); [lia|]. rewrite skipn_app, skipn_all, PeanoNat.Nat.sub_diag. reflexivity.
Qed.

(** ** Servers *)

Lemma valid_port_text p : valid_port p = true <-> port_text p.
Proof.
  unfold port_text. destruct p as [|c d]; cbn [valid_port]; [split; [auto|reflexivity]|].
  rewrite andb_true_iff, figures_digits, Ascii.eqb_eq. split.
  - intros [-> H]. right. eauto.
  - intros [H|(d' & E & H)]; [discriminate|]. injection E as -> ->. auto.
Qed.

Lemma port_no_bracket p : port_text p -> ~ In "]"%char p.
Proof.
  intros [->|(d & -> & H)] Hi; [exact Hi|]. destruct Hi as [Hi|Hi]; [discriminate|]. rewrite Forall_forall in H. apply H in Hi.
  revert Hi. cbn. intuition discriminate.
Qed.

Lemma unescape_port p : port_text p -> unescape MHost ("]"%char :: p) = Some ("]"%char :: p).
Proof.
  assert (Hd : forall d, Forall (fun c => In c figures) d -> name_text d d).
  { intros d H. induction H as [|c d Hc H IH]; [constructor|]. apply esc_plain; [|left|exact IH].
    - intros ->. revert Hc. cbn. intuition discriminate.
    - unfold host_byte. apply in_or_app. right. apply in_or_app. left. exact Hc. }
  assert (Hp : forall c, In c (bs ":]") -> host_byte c).
  { intros c Hc. apply host_escape_byte. destruct Hc as [<-|[<-|[]]]; reflexivity. }
  intros H. apply escaped_name. apply esc_plain; [discriminate|left; apply Hp; right; left; reflexivity|].
  destruct H as [->|(d & -> & H)]; [constructor|]. apply esc_plain; [discriminate|left; apply Hp; left; reflexivity|apply Hd, H].
Qed.

Lemma index_of_bracket s : index_of (bs "%25") ("["%char :: s) = option_map S (index_of (bs "%25") s).
Proof. reflexivity. Qed.

Lemma parse_host_text s h : parse_host s = Some h <-> server_text s h.
Proof.
  unfold parse_host. destruct (has_prefix (bs "[") s) eqn:Eb.
  - apply has_prefix_spec in Eb as [r Er]. change (bs "[" ++ r) with ("["%char :: r) in Er. split.
    + destruct (cut_last "]" s) as [[inner p]|] eqn:Ec; [|discriminate]. apply cut_last_some in Ec as [Es Hn].
      destruct (valid_port p) eqn:Ep; cbn [negb]; [|discriminate]. apply valid_port_text in Ep.
      destruct inner as [|b a]; [rewrite Es in Er; discriminate|].
      assert (b = "["%char) by (rewrite Es in Er; injection Er; auto). subst b. clear Er. subst s.
      rewrite index_of_bracket. destruct (index_of (bs "%25") a) as [i|] eqn:Ei; cbn [option_map].
      * destruct (index_of_some _ _ _ Ei) as (z & Ez & Hl). cbn [firstn skipn].
        destruct (unescape MHost ("["%char :: firstn i a)) as [h1|] eqn:E1; [|discriminate]. cbn [bind].
        destruct (unescape MZone (skipn i a)) as [h2|] eqn:E2; [|discriminate]. cbn [bind].
        rewrite (unescape_port _ Ep). cbn [bind]. intros H. injection H as <-.
        assert (Esk : skipn i a = bs "%25" ++ z).
        { rewrite Ez at 1. rewrite skipn_app, skipn_all2, firstn_length_le, PeanoNat.Nat.sub_diag; [reflexivity|exact Hl|rewrite firstn_length_le; lia]. }
        replace (("["%char :: a) ++ "]"%char :: p) with ("["%char :: firstn i a ++ bs "%25" ++ z ++ "]"%char :: p)
          by (cbn [app]; f_equal; rewrite (app_assoc (bs "%25")), app_assoc, <- Ez; reflexivity).
        apply st_zone; [exact Ep| |apply escaped_name, E1|rewrite <- Esk; apply escaped_zone, E2].
        intros x y Exy. rewrite <- Ez in Exy. rewrite firstn_length_le by exact Hl.
        destruct (PeanoNat.Nat.le_gt_cases i (length x)) as [|Hlt]; [assumption|]. exfalso.
        apply (index_of_first _ _ _ Ei (length x) y Hlt). rewrite Exy, skipn_app, skipn_all, PeanoNat.Nat.sub_diag. reflexivity.
      * intros H. apply escaped_name in H. apply st_address; [exact Ep| |exact H].
        intros (x & y & E). exact (index_of_none _ _ Ei x y E).
    + intros H. destruct H as [s h Hb Hp Hn|a p h Hp Hz Hn|a z p h1 h2 Hp Hz Hn1 Hn2].
      * exfalso. exact (Hb r Er).
      * replace (cut_last "]" ("["%char :: a ++ "]"%char :: p)) with (Some ("["%char :: a, p))
          by (symmetry; apply cut_last_some; split; [reflexivity|apply port_no_bracket, Hp]).
        apply valid_port_text in Hp. rewrite Hp. cbn [negb]. rewrite index_of_bracket.
        destruct (index_of (bs "%25") a) as [i|] eqn:Ei; cbn [option_map].
        -- exfalso. apply Hz. destruct (index_of_some _ _ _ Ei) as (z & Ez & _). exists (firstn i a), z. exact Ez.
        -- apply escaped_name. exact Hn.
      * replace (cut_last "]" ("["%char :: a ++ bs "%25" ++ z ++ "]"%char :: p)) with (Some ("["%char :: a ++ bs "%25" ++ z, p))
          by (symmetry; apply cut_last_some; split; [cbn [app]; rewrite <- !app_assoc; reflexivity|apply port_no_bracket, Hp]).
        pose proof Hp as Hp'. apply valid_port_text in Hp'. rewrite Hp'. cbn [negb]. rewrite index_of_bracket, (index_of_at _ _ _ Hz). cbn [option_map firstn skipn].
        rewrite firstn_app, firstn_all, PeanoNat.Nat.sub_diag, skipn_app, skipn_all, PeanoNat.Nat.sub_diag. cbn [firstn skipn]. rewrite app_nil_r.
        change ([] ++ bs "%25" ++ z) with (bs "%25" ++ z).
        apply escaped_name in Hn1. apply escaped_zone in Hn2. rewrite Hn1, Hn2. cbn [bind]. rewrite (unescape_port _ Hp). reflexivity.
  - assert (Hb : forall r, s <> "["%char :: r) by (intros r ->; discriminate Eb). split.
    + intros H. apply st_name; [exact Hb| |].
      * intros a p E Hn. assert (Ec : cut_last ":" s = Some (a, p)) by (apply cut_last_some; auto). rewrite Ec in H.
        destruct (forallb is_digit p) eqn:Ed; [apply figures_digits, Ed|discriminate].
      * apply escaped_name. destruct (cut_last ":" s) as [[a p]|]; [destruct (forallb is_digit p); [exact H|discriminate]|exact H].
    + intros H. inversion H as [s' h' _ Hp Hn|a p h' Hp Hz Hn|a z p h1 h2 Hp Hz Hn1 Hn2]; subst; clear H.
      * apply escaped_name in Hn. destruct (cut_last ":" s) as [[a p]|] eqn:Ec; [|exact Hn]. apply cut_last_some in Ec as [-> Hc].
        specialize (Hp a p eq_refl Hc). apply figures_digits in Hp. rewrite Hp. exact Hn.
      * exfalso. exact (Hb _ eq_refl).
      * exfalso. exact (Hb _ eq_refl).
Qed.

(** ** Users *)

Lemma escaped_app plain coded s1 t1 s2 t2 : escaped plain coded s1 t1 -> escaped plain coded s2 t2 -> escaped plain coded (s1 ++ s2) (t1 ++ t2).
Proof. intros H1 H2. induction H1; cbn [app]; [exact H2|constructor; assumption|constructor; assumption]. Qed.

Lemma colon_not_hex v : ~ hex_digit ":" v.
Proof. intros H. apply hex_digit_of in H as [H _]. discriminate. Qed.

Lemma escaped_cut s1 s2 t : escaped any any (s1 ++ ":"%char :: s2) t -> ~ In ":"%char s1 ->
  exists t1 t2, escaped any any s1 t1 /\ escaped any any s2 t2.
Proof.
  remember (s1 ++ ":"%char :: s2) as s eqn:E. intros H. revert s1 E. induction H as [|c s t Hc Hp H IH|a b x y s t Ha Hb Hc H IH]; intros s1 E Hn.
  - destruct s1; discriminate.
  - destruct s1 as [|d s1]; injection E as -> ->.
    + exists [], t. split; [constructor|exact H].
    + destruct (IH s1 eq_refl) as (t1 & t2 & H1 & H2); [intros Hi; apply Hn; right; exact Hi|].
      exists (d :: t1), t2. split; [constructor; assumption|exact H2].
  - destruct s1 as [|d [|a' [|b' s1]]]; injection E.
    + discriminate.
    + intros _ -> _. destruct (colon_not_hex _ Ha).
    + intros _ -> _ _. destruct (colon_not_hex _ Hb).
    + intros -> -> -> <-. destruct (IH s1 eq_refl) as (t1 & t2 & H1 & H2); [intros Hi; apply Hn; do 3 right; exact Hi|].
      eexists _, t2. split; [apply esc_coded; eassumption|exact H2].
Qed.

Lemma userinfo_text u : (exists a b, unescape MPlain (fst (cut ":" u)) = Some a /\ unescape MPlain (snd (cut ":" u)) = Some b) <->
  exists t, escaped any any u t.
Proof.
  destruct (cut_parts ":" u) as (r & E & Hn & Hs & Er). rewrite Er. clear Er. set (x := fst (cut ":" u)) in *. clearbody x. subst u. split.
  - intros (a & b & Ha & Hb). apply escaped_plain in Ha, Hb. destruct Hs as [->|[r' ->]].
    + exists a. rewrite app_nil_r. exact Ha.
    + exists (a ++ ":"%char :: b). apply escaped_app; [exact Ha|]. apply esc_plain; [discriminate|exact I|exact Hb].
  - intros [t H]. destruct Hs as [->|[r' ->]].
    + rewrite app_nil_r in H. exists t, []. split; [apply escaped_plain, H|reflexivity].
    + apply escaped_cut in H as (t1 & t2 & H1 & H2); [|exact Hn]. exists t1, t2. split; apply escaped_plain; assumption.
Qed.

Lemma parse_authority_text s h : parse_authority s = Some h <-> authority_text s h.
Proof.
  unfold parse_authority. destruct (cut_last "@" s) as [[u r]|] eqn:Ec.
  - apply cut_last_some in Ec as [-> Hn]. cbv zeta. split.
    + destruct (parse_host r) as [h'|] eqn:Eh; [|discriminate]. cbn [bind]. destruct (valid_userinfo u) eqn:Eu; cbn [negb]; [|discriminate].
      destruct (unescape MPlain (fst (cut ":" u))) as [a|] eqn:Ea; [|discriminate]. cbn [bind].
      destruct (unescape MPlain (snd (cut ":" u))) as [b|] eqn:Eb; [|discriminate]. cbn [bind]. intros H. injection H as ->.
      destruct (proj1 (userinfo_text u)) as [t Ht]; [eauto|]. eapply at_user; [exact Hn| |exact Ht|apply parse_host_text, Eh].
      unfold valid_userinfo in Eu. rewrite forallb_forall in Eu. apply Forall_forall. intros c Hc. apply user_byte_ok, Eu, Hc.
    + intros H. inversion H as [s' h' Hn' Hs|u' r' h' t Hn' Hu Ht Hs]; subst.
      * exfalso. apply Hn'. apply in_or_app. right. left. reflexivity.
      * assert (E : Some (u', r') = Some (u, r)).
        { transitivity (cut_last "@" (u ++ "@"%char :: r)); [symmetry|]; apply cut_last_some; auto. }
        injection E as -> ->. apply parse_host_text in Hs. rewrite Hs. cbn [bind].
        assert (Eu : valid_userinfo u = true).
        { unfold valid_userinfo. apply forallb_forall. rewrite Forall_forall in Hu. intros c Hc. apply user_byte_ok, Hu, Hc. }
        rewrite Eu. cbn [negb]. destruct (proj2 (userinfo_text u) (ex_intro _ t Ht)) as (a & b & -> & ->). reflexivity.
  - apply cut_last_none in Ec. rewrite parse_host_text. split; [intros H; apply at_server; assumption|].
    intros H. inversion H as [s' h' Hn' Hs|u' r' h' t Hn' Hu Ht Hs]; subst; [exact Hs|].
    exfalso. apply Ec. apply in_or_app. right. left. reflexivity.
Qed.

(** ** URLs *)

Lemma no_control s : existsb (fun c => (code c <? 32)%N || (code c =? 127)%N) s = false <-> forall c, In c s -> ~ control c.
Proof.
  split.
  - intros H c Hc [Hk|Hk]; apply not_true_iff_false in H; apply H, existsb_exists; exists c; (split; [exact Hc|]).
    + apply orb_true_iff. left. apply N.ltb_lt, Hk.
    + apply orb_true_iff. right. apply N.eqb_eq, Hk.
  - intros H. apply not_true_iff_false. intros E. apply existsb_exists in E as (c & Hc & E). apply (H c Hc).
    apply orb_true_iff in E as [E|E]; [left; apply N.ltb_lt, E|right; apply N.eqb_eq, E].
Qed.

Lemma control_scheme : existsb (fun c => (code c <? 32)%N || (code c =? 127)%N) (bs "https://") = false.
Proof. reflexivity. Qed.

Lemma starts_skip c s : starts c s -> s = [] \/ s = c :: skipn 1 s.
Proof. intros [->|[r ->]]; auto. Qed.

Lemma parse_url_names u x : https u -> parse_url u = Some x -> names u (u_host x) (u_path x).
Proof.
  intros [r ->]. unfold parse_url. cbv zeta.
  destruct (cut_parts "#" (bs "https://" ++ r)) as (frag & E1 & Hn1 & Hs1 & Ef). rewrite Ef.
  destruct (existsb _ (fst (cut "#" (bs "https://" ++ r)))) eqn:Ek; [discriminate|].
  assert (Eb : exists b, fst (cut "#" (bs "https://" ++ r)) = bs "https://" ++ b /\ r = b ++ frag).
  { destruct (cut_parts "#" r) as (f' & E' & Hn' & Hs' & _). exists (fst (cut "#" r)).
    assert (Ecut : cut "#" (bs "https://" ++ r) = (bs "https://" ++ fst (cut "#" r), skipn 1 f')).
    { rewrite E' at 1. rewrite app_assoc. apply cut_app; [|exact Hs']. intros Hi. apply in_app_or in Hi as [Hi|Hi]; [|exact (Hn' Hi)].
      revert Hi. cbn. intuition discriminate. }
    split; [rewrite Ecut; reflexivity|]. rewrite Ecut in E1. cbn [fst] in E1. rewrite <- app_assoc in E1. apply app_inv_head in E1. exact E1. }
  destruct Eb as (b & Eb & ->). rewrite Eb in *. clear Eb E1 Ef. rewrite existsb_app in Ek. apply orb_false_iff in Ek as [_ Ek].
  change (skipn 8 (bs "https://" ++ b)) with b.
  destruct (cut_parts "?" b) as (query & E2 & Hn2 & Hs2 & Eq2). rewrite Eq2. set (ap := fst (cut "?" b)) in *. clearbody ap.
  destruct (cut_parts "/" ap) as (p & E3 & Hn3 & Hs3 & _). set (auth := fst (cut "/" ap)) in *. clearbody auth. clear Eq2. subst ap b.
  replace (skipn (length auth) (auth ++ p)) with p by (rewrite skipn_app, skipn_all, PeanoNat.Nat.sub_diag; reflexivity).
  destruct (parse_authority auth) as [h|] eqn:Ea; [|discriminate]. cbn [bind].
  destruct (unescape MPlain p) as [path|] eqn:Ep; [|discriminate]. cbn [bind].
  destruct (unescape MPlain (skipn 1 frag)) as [t|] eqn:Et; [|discriminate]. cbn [bind]. intros H. injection H as <-. cbn [u_host u_path].
  assert (Hh : ~ In "#"%char auth /\ ~ In "#"%char p /\ ~ In "#"%char query).
  { repeat split; intros Hi; apply Hn1; apply in_or_app; right; repeat (apply in_or_app); auto.
    - left. apply in_or_app. auto. - left. apply in_or_app. auto. }
  assert (Hq : ~ In "?"%char auth /\ ~ In "?"%char p).
  { split; intros Hi; apply Hn2; apply in_or_app; auto. }
  exists auth, p, query, frag, t. split; [rewrite <- !app_assoc; reflexivity|].
  split; [cbn; intuition (subst; auto)|]. split; [exact Hs3|]. split; [cbn; intuition (subst; auto)|]. split; [exact Hs2|].
  split; [tauto|]. split; [exact Hs1|]. split; [apply no_control; rewrite app_assoc; exact Ek|].
  split; [apply parse_authority_text, Ea|]. split; [apply escaped_plain, Ep|apply escaped_plain, Et].
Qed.

Lemma names_parse_url u h path : names u h path -> exists q, parse_url u = Some (mkUrl h path q).
Proof.
  intros (auth & p & query & frag & t & -> & Ha & Hp & Hp' & Hq & Hq' & Hf & Hk & Hat & Hpt & Hft). exists (skipn 1 query).
  assert (Hin : forall c s, In c s -> ~ In c (bs "/?#") -> In c s) by auto.
  unfold parse_url. cbv zeta.
  replace (bs "https://" ++ auth ++ p ++ query ++ frag) with ((bs "https://" ++ auth ++ p ++ query) ++ frag) by (rewrite <- !app_assoc; reflexivity).
  rewrite cut_app; [|intros Hi; repeat apply in_app_or in Hi as [Hi|Hi]|exact Hf].
  2:{ revert Hi. cbn. intuition discriminate. }
  2:{ revert Hi. apply Ha. cbn. auto. }
  2:{ revert Hi. apply Hp'. cbn. auto. }
  2:{ exact (Hq' Hi). }
  cbn [fst snd]. rewrite existsb_app, control_scheme. cbn [orb]. apply no_control in Hk. rewrite Hk.
  change (skipn 8 (bs "https://" ++ auth ++ p ++ query)) with (auth ++ p ++ query). rewrite app_assoc.
  rewrite cut_app; [|intros Hi; apply in_app_or in Hi as [Hi|Hi]|exact Hq].
  2:{ revert Hi. apply Ha. cbn. auto. }
  2:{ revert Hi. apply Hp'. cbn. auto. }
  cbn [fst snd]. rewrite cut_app; [|apply Ha; cbn; auto|exact Hp]. cbn [fst].
  rewrite skipn_app, skipn_all, PeanoNat.Nat.sub_diag. cbn [skipn app].
  apply parse_authority_text in Hat. apply escaped_plain in Hpt, Hft. rewrite Hat. cbn [bind]. rewrite Hpt. cbn [bind].
  change (match frag with [] => [] | _ :: l => l end) with (skipn 1 frag). rewrite Hft. reflexivity.
Qed.

Lemma names_https u h path : names u h path -> https u.
Proof. intros (a & p & q & f & t & -> & _). exists (a ++ p ++ q ++ f). reflexivity. Qed.

Lemma parse_url_iff u : https u -> parse_url u <> None <-> exists h path, names u h path.
Proof.
  intros Hu. split.
  - destruct (parse_url u) as [x|] eqn:E; [intros _|contradiction]. exists (u_host x), (u_path x). apply parse_url_names; assumption.
  - intros (h & path & H). apply names_parse_url in H as [q ->]. discriminate.
Qed.

Lemma names_unique u h1 p1 h2 p2 : names u h1 p1 -> names u h2 p2 -> h1 = h2 /\ p1 = p2.
Proof.
  intros H1 H2. apply names_parse_url in H1 as [q1 E1]. apply names_parse_url in H2 as [q2 E2]. rewrite E1 in E2. injection E2 as -> -> _. auto.
Qed.

(** ** Ordinary URLs *)

Lemma escaped_same plain coded s : (forall c, In c s -> c <> "%"%char /\ plain c) -> escaped plain coded s s.
Proof.
  induction s as [|c s IH]; intros H; [constructor|]. apply esc_plain; [apply H; left; reflexivity|apply H; left; reflexivity|].
  apply IH. intros d Hd. apply H. right. exact Hd.
Qed.

Definition dns_byte (c : ascii) : Prop := In c (letters ++ figures ++ bs "-.").
Definition path_byte (c : ascii) : Prop := ~ control c /\ ~ In c (bs "%?#").

Lemma dns_host c : dns_byte c -> host_byte c /\ ~ In c (bs "/?#@%[:") /\ ~ control c.
Proof.
  intros H. apply in_text in H. split; [|split].
  - apply in_text. revert H. destruct c as [[] [] [] [] [] [] [] []]; vm_compute; auto.
  - rewrite <- in_text. revert H. destruct c as [[] [] [] [] [] [] [] []]; vm_compute; intuition discriminate.
  - unfold control. revert H. destruct c as [[] [] [] [] [] [] [] []]; vm_compute; intuition discriminate.
Qed.

Lemma ordinary_names host path : Forall dns_byte host -> starts "/" path -> Forall path_byte path ->
  names (bs "https://" ++ host ++ path) host path.
Proof.
  intros Hh Hs Hp. rewrite Forall_forall in Hh, Hp. exists host, path, [], [], [].
  assert (Hd : forall c, In c (bs "/?#@%[:") -> ~ In c host) by (intros c Hc Hi; destruct (dns_host c (Hh c Hi)) as (_ & H & _); exact (H Hc)).
  split; [rewrite !app_nil_r; reflexivity|]. split; [intros c Hc; apply Hd; revert Hc; cbn; tauto|]. split; [exact Hs|].
  split; [intros c Hc Hi; destruct (Hp c Hi) as [_ H]; apply H; revert Hc; cbn; tauto|].
  split; [left; reflexivity|]. split; [intros []|]. split; [left; reflexivity|].
  split; [intros c Hc; rewrite app_nil_r in Hc; apply in_app_or in Hc as [Hc|Hc]; [apply dns_host, Hh, Hc|apply Hp, Hc]|].
  split.
  - apply at_server; [apply Hd; cbn; tauto|]. apply st_name.
    + intros r ->. apply (Hd "["%char); [cbn; tauto|left; reflexivity].
    + intros a p -> _. exfalso. apply (Hd ":"%char); [cbn; tauto|]. apply in_or_app. right. left. reflexivity.
    + apply escaped_same. intros c Hc. split; [intros ->; apply (Hd "%"%char); [cbn; tauto|exact Hc]|]. left. apply dns_host, Hh, Hc.
  - split; [|constructor]. apply escaped_same. intros c Hc. split; [|exact I]. intros ->. destruct (Hp "%"%char Hc) as [_ H]. apply H. cbn. tauto.
Qed.

(** ** Ports and names *)

Lemma figures_no_colon p : Forall (fun c => In c figures) p -> ~ In ":"%char p.
Proof. intros H Hi. rewrite Forall_forall in H. apply H in Hi. revert Hi. cbn. intuition discriminate. Qed.

Lemma port_of_cut h p : port_of h p <-> exists a, cut_last ":" h = Some (a, p) /\ forallb is_digit p = true.
Proof.
  split.
  - intros (a & -> & H). exists a. split; [|apply figures_digits, H]. apply cut_last_some. split; [reflexivity|apply figures_no_colon, H].
  - intros (a & E & H). apply cut_last_some in E as [-> _]. exists a. split; [reflexivity|apply figures_digits, H].
Qed.

Lemma port_of_snd h p : snd (split_host_port h) = p -> p <> [] -> port_of h p.
Proof.
  unfold split_host_port. cbv zeta. cbn [snd]. intros <- H. destruct (cut_last ":" h) as [[a q]|] eqn:E; [|contradiction].
  destruct (forallb is_digit q) eqn:Ed; [|contradiction]. apply port_of_cut. eauto.
Qed.

Lemma snd_port_of h p : port_of h p -> snd (split_host_port h) = p.
Proof. intros H. apply port_of_cut in H as (a & E & Ed). unfold split_host_port. rewrite E, Ed. reflexivity. Qed.

Lemma address_of x : address (u_host x) (match port x with [] => u_host x ++ bs ":443" | _ => u_host x end).
Proof.
  unfold address, port. destruct (snd (split_host_port (u_host x))) as [|c p] eqn:E.
  - right. split; [|reflexivity]. intros (p & H & Hn). apply snd_port_of in H. congruence.
  - left. split; [|reflexivity]. exists (c :: p). split; [apply port_of_snd; [exact E|]|]; discriminate.
Qed.

Lemma address_unique h a b : address h a -> address h b -> a = b.
Proof. intros [[H1 ->]|[H1 ->]] [[H2 ->]|[H2 ->]]; [reflexivity|contradiction|contradiction|reflexivity]. Qed.

Lemma brackets a : if has_prefix (bs "[") a && has_suffix (bs "]") a
  then a = bs "[" ++ removelast (skipn 1 a) ++ bs "]" else ~ exists m, a = bs "[" ++ m ++ bs "]".
Proof.
  destruct (has_prefix (bs "[") a) eqn:E1; cbn [andb].
  - apply has_prefix_spec in E1 as [r ->]. destruct (has_suffix (bs "]") (bs "[" ++ r)) eqn:E2.
    + apply has_suffix_spec in E2 as [s E2]. destruct s as [|c s]; [destruct r; discriminate|]. injection E2 as <- ->.
      change (skipn 1 (bs "[" ++ s ++ ["]"%char])) with (s ++ ["]"%char]). rewrite removelast_app by discriminate. cbn [removelast]. rewrite app_nil_r. reflexivity.
    + intros [m E]. assert (has_suffix (bs "]") (bs "[" ++ r) = true) by (apply has_suffix_spec; exists (bs "[" ++ m); rewrite E, app_assoc; reflexivity). congruence.
  - intros [m ->]. discriminate E1.
Qed.

Lemma server_name_of x : server_name (u_host x) (hostname x).
Proof.
  unfold server_name, hostname, split_host_port. cbv zeta. cbn [fst]. set (h := u_host x). clearbody h.
  destruct (cut_last ":" h) as [[a p]|] eqn:E.
  - destruct (forallb is_digit p) eqn:Ed; cbn [fst].
    + exists a. split.
      * left. exists p. split; [apply port_of_cut; eauto|]. apply cut_last_some in E. tauto.
      * pose proof (brackets a) as H. destruct (has_prefix (bs "[") a && has_suffix (bs "]") a); auto.
    + exists h. split.
      * right. split; [|reflexivity]. intros (q & H). apply port_of_cut in H as (a' & E' & H). rewrite E in E'. injection E' as -> ->. congruence.
      * pose proof (brackets h) as H. destruct (has_prefix (bs "[") h && has_suffix (bs "]") h); auto.
  - cbn [fst]. exists h. split.
    + right. split; [|reflexivity]. intros (q & H). apply port_of_cut in H as (a' & E' & H). congruence.
    + pose proof (brackets h) as H. destruct (has_prefix (bs "[") h && has_suffix (bs "]") h); auto.
Qed.

Lemma server_name_unique h n m : server_name h n -> server_name h m -> n = m.
Proof.
  intros (a & Ha & Hn) (b & Hb & Hm).
  assert (a = b).
  { destruct Ha as [(p & Hp & Ep)|[Hno ->]]; destruct Hb as [(q & Hq & Eq)|[Hno' ->]].
    - assert (p = q) by (rewrite <- (snd_port_of _ _ Hp); apply snd_port_of, Hq). subst q. rewrite Ep in Eq. apply app_inv_tail in Eq. exact Eq.
    - exfalso. eauto.
    - exfalso. eauto.
    - reflexivity. }
  subst b. destruct Hn as [Hn|[-> Hn]]; destruct Hm as [Hm|[-> Hm]].
  - rewrite Hn in Hm. apply app_inv_head, app_inv_tail in Hm. exact Hm.
  - exfalso. eauto.
  - exfalso. eauto.
  - reflexivity.
Qed.

(** ** Clients *)

Definition sends (c : client) : Prop := forall bc hc, c = Basic bc -> bc_HTTPClient bc = Some hc -> hc_limit hc <> 0.

Lemma do_http_sends w hc rw r (f : option http_response -> net outcome) tr o : hc_limit hc <> 0 ->
  runs (andthen (http_do w hc rw r) f) tr o -> tr <> [].
Proof.
  intros Hl H. apply runs_andthen in H as (tr1 & a & tr2 & H1 & _ & ->).
  destruct (do_http_round _ _ _ _ _ _ _ _ _ H1) as [(Hf0 & _)|(_ & b & Hr & _)]; [contradiction|].
  destruct (round_ne _ _ _ _ _ Hr) as (y & tr' & ->). discriminate.
Qed.

Lemma raw_accepts w c u body rw tr o : https u -> sends c -> runs (raw_request w c u body rw) tr o ->
  (tr <> [] <-> parse_url u <> None).
Proof.
  intros Hu Hs H. pose proof Hu as Hp. apply has_prefix_https in Hp. destruct c as [bc|bc|bc]; cbn [raw_request] in H.
  - unfold basic_raw in H. rewrite Hp in H. cbn [negb] in H. destruct (parse_url u) as [x|].
    + split; [discriminate|]. intros _. cbv zeta in H. eapply do_http_sends; [|exact H].
      destruct (bc_HTTPClient bc) as [hc|] eqn:E; [exact (Hs bc hc eq_refl E)|discriminate].
    + apply runs_done_inv in H as [-> _]. split; intros Hc; contradiction.
  - unfold vanguard_raw in H. rewrite Hp in H. cbn [negb] in H. destruct (parse_url u) as [x|].
    + split; [discriminate|]. intros _. eapply do_http_sends; [|exact H]. discriminate.
    + apply runs_done_inv in H as [-> _]. split; intros Hc; contradiction.
  - unfold discover_raw in H. rewrite Hp in H. cbn [negb] in H. apply runs_andthen in H as (tr1 & a & tr2 & H1 & H2 & ->).
    unfold discover_post in H1. destruct (parse_url u) as [x|].
    + split; [discriminate|]. intros _. cbv zeta in H1. apply runs_dial_inv in H1 as (ok & t & -> & _). discriminate.
    + apply runs_done_inv in H1 as [-> ->]. apply runs_done_inv in H2 as [-> _]. split; intros Hc; contradiction.
Qed.

Lemma raw_rejects w c u body rw tr o : https u -> ~ (exists h p, names u h p) -> runs (raw_request w c u body rw) tr o ->
  tr = [] /\ fst o = None /\ snd o <> None.
Proof.
  intros Hu Hn H. assert (E : parse_url u = None).
  { destruct (parse_url u) eqn:E; [|reflexivity]. exfalso. apply Hn. apply parse_url_iff; [exact Hu|congruence]. }
  pose proof Hu as Hp. apply has_prefix_https in Hp. destruct c as [bc|bc|bc]; cbn [raw_request] in H.
  - unfold basic_raw in H. rewrite Hp, E in H. cbn [negb] in H. apply runs_done_inv in H as [-> ->]. repeat split; discriminate.
  - unfold vanguard_raw in H. rewrite Hp, E in H. cbn [negb] in H. apply runs_done_inv in H as [-> ->]. repeat split; discriminate.
  - unfold discover_raw in H. rewrite Hp in H. cbn [negb] in H. apply runs_andthen in H as (tr1 & a & tr2 & H1 & H2 & ->).
    unfold discover_post in H1. rewrite E in H1. apply runs_done_inv in H1 as [-> ->]. apply runs_done_inv in H2 as [-> ->]. repeat split; discriminate.
Qed.

Lemma discover_goes w bc u body rw tr o host path : names u host path -> runs (raw_request w (Discover bc) u body rw) tr o ->
  exists a n ok rest, address host a /\ server_name host n /\ tr = EDial a ok :: rest /\
    (rest = [] \/ exists len ok1 rest', digits len (Z.of_nat (length body)) /\ len <> [] /\ rest = EWrite
       (bs "POST " ++ match path with [] => bs "/" | _ => path end ++ bs " HTTP/1.1" ++ [chr 13; chr 10] ++
        concat (map header_line [(bs "Content-Type", bs "application/x-ofx"); (bs "Host", n); (bs "Content-Length", len); (bs "Connection", bs "Keep-Alive")]) ++
        [chr 13; chr 10]) ok1 :: rest').
Proof.
  intros Hn H. pose proof (names_https _ _ _ Hn) as Hu. destruct (names_parse_url _ _ _ Hn) as [q E].
  assert (Hne : tr <> []) by (eapply raw_accepts; [exact Hu| |exact H|congruence]; intros b hc Hc; discriminate).
  apply discover_history in H as [->|(x & _ & Ex & Hc)]; [contradiction|]. rewrite E in Ex. injection Ex as <-. cbv zeta in Hc.
  pose proof (address_of (mkUrl host path q)) as Ha. pose proof (server_name_of (mkUrl host path q)) as Hs. cbn [u_host] in Ha, Hs, Hc.
  set (a := match port (mkUrl host path q) with [] => host ++ bs ":443" | _ => host end) in *.
  assert (Hd : fmt_d (Z.of_nat (length body)) <> [] /\ digits (fmt_d (Z.of_nat (length body))) (Z.of_nat (length body))).
  { unfold fmt_d. destruct (Z.of_nat (length body) <? 0)%Z eqn:El; [lia|]. split; [apply fmt_nat_nonempty; lia|].
    apply digits_iff. split; [apply fmt_nat_digits; lia | apply fmt_nat_dval; lia]. }
  destruct Hd as [Hd1 Hd2].
  assert (Eh : discover_headers (mkUrl host path q) body =
    bs "POST " ++ match path with [] => bs "/" | _ => path end ++ bs " HTTP/1.1" ++ [chr 13; chr 10] ++
    concat (map header_line [(bs "Content-Type", bs "application/x-ofx"); (bs "Host", hostname (mkUrl host path q));
      (bs "Content-Length", fmt_d (Z.of_nat (length body))); (bs "Connection", bs "Keep-Alive")]) ++ [chr 13; chr 10]).
  { unfold discover_headers, crlf. cbv zeta. cbn [map concat u_path]. unfold header_line. cbn [fst snd].
    repeat rewrite <- app_assoc. destruct path; reflexivity. }
  rewrite Eh in Hc. exists a, (hostname (mkUrl host path q)). destruct Hc as [->|[[ok ->]|(ok & b & ->)]].
  - exists false, []. auto.
  - eexists true, _. split; [exact Ha|]. split; [exact Hs|]. split; [reflexivity|]. right. eexists _, ok, _. split; [exact Hd2|]. split; [exact Hd1|].
    reflexivity.
  - eexists true, _. split; [exact Ha|]. split; [exact Hs|]. split; [reflexivity|]. right. eexists _, ok, _. split; [exact Hd2|]. split; [exact Hd1|].
    reflexivity.
Qed.
