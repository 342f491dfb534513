(** Lemmas about the scalar types of Types.v other than Amount and Date. *)
From Coq Require Import Lia ZifyBool ZifyNat ZifyN.
From Verif Require Import GoStr SpecStr SpecNum GoStrFacts GoNum GoNumFacts GoRat GoTime Types.
Ltac Zify.zify_post_hook ::= Z.div_mod_to_equations.
Local Open Scope Z_scope.

(** ** Int *)

Lemma int_unmarshal_iff s v :
  int_unmarshal s = Some v <-> exists t, trims_to s t /\ integer t v /\ int64_range v.
Proof.
  unfold int_unmarshal. rewrite parse_int_iff. split.
  - intros H. exists (trim_space s). split; [apply trim_space_sound|exact H].
  - intros [t [Ht H]]. rewrite (trim_space_complete s t Ht). exact H.
Qed.

Lemma int_round_trip v l r : int64_range v -> ws_run l -> ws_run r ->
  int_unmarshal (l ++ int_marshal v ++ r) = Some v.
Proof.
  intros Hv Hl Hr. apply int_unmarshal_iff. exists (int_marshal v).
  split; [|split; [apply fmt_d_integer|exact Hv]].
  exists l, r. split; [exact Hl|]. split; [exact Hr|]. split; [reflexivity|apply fmt_d_trimmed].
Qed.

(** ** Boolean *)

Lemma boolean_unmarshal_iff s b :
  boolean_unmarshal s = Some b <-> trims_to s (if b then bs "Y" else bs "N").
Proof.
  rewrite <- trim_space_iff. unfold boolean_unmarshal.
  destruct (str_eqb_spec (trim_space s) (bs "Y")) as [->|H1];
  [|destruct (str_eqb_spec (trim_space s) (bs "N")) as [->|H2]].
  - destruct b; split; intros H; try reflexivity; discriminate.
  - destruct b; split; intros H; try reflexivity; discriminate.
  - destruct b; split; intros H; try discriminate; congruence.
Qed.

Lemma boolean_round_trip b l r : ws_run l -> ws_run r ->
  boolean_unmarshal (l ++ boolean_marshal b ++ r) = Some b.
Proof.
  intros Hl Hr. apply boolean_unmarshal_iff. exists l, r. split; [exact Hl|]. split; [exact Hr|].
  split; [destruct b; reflexivity|]. destruct b; apply trimmed_all_plain; reflexivity.
Qed.

(** ** String, UID *)

Lemma string_unmarshal_iff s t : string_unmarshal s = t <-> trims_to s t.
Proof. apply trim_space_iff. Qed.

Lemma uid_unmarshal_iff s t : uid_unmarshal s = t <-> trims_to s t.
Proof. apply trim_space_iff. Qed.

Lemma trimmed_fix_iff t : trim_space t = t <-> trimmed t.
Proof.
  split; [|apply trim_space_id]. intros H. rewrite <- H. apply trim_space_trimmed.
Qed.

Lemma uid_valid_iff u : uid_valid u = true <-> (1 <= length u <= 36)%nat.
Proof.
  unfold uid_valid.
  destruct (Nat.eqb_spec (length u) 0); destruct (Nat.ltb_spec 36 (length u)); cbn [orb];
    split; intros; try discriminate; try lia; reflexivity.
Qed.

Lemma uid_recommended_iff u : uid_recommended u = true <->
  length u = 36%nat /\ forall k, In k [8; 13; 18; 23]%nat -> nth_error u k = Some "-"%char.
Proof.
  unfold uid_recommended.
  assert (Hh : forall n, match nth_error u n with Some c => Ascii.eqb c "-" | None => false end = true
                         <-> nth_error u n = Some "-"%char).
  { intros n. destruct (nth_error u n) as [c|]; [|split; discriminate].
    rewrite Ascii.eqb_eq. split; [intros ->; reflexivity|intros [= ->]; reflexivity]. }
  destruct (Nat.eqb_spec (length u) 36) as [Hl|Hl]; cbn [negb].
  - set (f n := match nth_error u n with Some c => Ascii.eqb c "-" | None => false end).
    fold (f 8%nat) (f 13%nat) (f 18%nat) (f 23%nat).
    destruct (f 8%nat) eqn:E8, (f 13%nat) eqn:E13, (f 18%nat) eqn:E18, (f 23%nat) eqn:E23; cbn [negb orb];
    split; intros H; try discriminate;
    try (split; [exact Hl|]; intros k Hk; cbn in Hk;
         destruct Hk as [<-|[<-|[<-|[<-|[]]]]]; apply Hh; assumption); try reflexivity;
    destruct H as [_ H]; exfalso;
    [ .. ];
    first [ assert (f 8%nat = true) by (apply Hh, H; cbn; tauto); congruence
          | assert (f 13%nat = true) by (apply Hh, H; cbn; tauto); congruence
          | assert (f 18%nat = true) by (apply Hh, H; cbn; tauto); congruence
          | assert (f 23%nat = true) by (apply Hh, H; cbn; tauto); congruence ].
  - split; [discriminate|]. intros [H _]. congruence.
Qed.

Lemma uid_recommended_valid u : uid_recommended u = true -> uid_valid u = true.
Proof. rewrite uid_recommended_iff, uid_valid_iff. intros [H _]. lia. Qed.

(** ** RandomUID *)

Lemma list16 (b : str) : length b = 16%nat -> exists b0 b1 b2 b3 b4 b5 b6 b7 b8 b9 b10 b11 b12 b13 b14 b15,
  b = [b0;b1;b2;b3;b4;b5;b6;b7;b8;b9;b10;b11;b12;b13;b14;b15].
Proof.
  intros H. do 16 (destruct b as [|? b]; [cbn in H; lia|]). destruct b; [|cbn in H; lia].
  do 16 eexists. reflexivity.
Qed.

(** The digits of the UID without the hyphens. *)
Definition no_hyphens (u : str) : str := filter (fun c => negb (Ascii.eqb c "-")) u.

Lemma hex_not_hyphen n : (n < 16)%N -> Ascii.eqb (hex_digit n) "-" = false.
Proof.
  intros H. destruct (Ascii.eqb_spec (hex_digit n) "-") as [E|]; [|reflexivity].
  pose proof (hex_digit_is_hex n H) as Hh. rewrite E in Hh. discriminate.
Qed.

Lemma no_hyphens_hex s : no_hyphens (fmt_hex s) = fmt_hex s.
Proof.
  unfold no_hyphens, fmt_hex. induction s as [|c s IH]; [reflexivity|].
  cbn [flat_map]. rewrite filter_app, IH. f_equal. cbn [hex_byte filter].
  pose proof (code_lt c). rewrite !hex_not_hyphen by lia. reflexivity.
Qed.

Lemma no_hyphens_app a b : no_hyphens (a ++ "-"%char :: b) = no_hyphens a ++ no_hyphens b.
Proof. unfold no_hyphens. rewrite filter_app. reflexivity. Qed.

Lemma random_uid_hex b : length b = 16%nat -> exists u, random_uid (RandRead b 16) = Some u /\
  length u = 36%nat /\
  (forall k c, nth_error u k = Some c ->
     if existsb (Nat.eqb k) [8; 13; 18; 23]%nat then c = "-"%char else is_lower_hex c = true) /\
  no_hyphens u = fmt_hex b.
Proof.
  intros H. apply list16 in H as [b0 [b1 [b2 [b3 [b4 [b5 [b6 [b7 [b8 [b9 [b10 [b11 [b12 [b13 [b14 [b15 ->]]]]]]]]]]]]]]]].
  eexists. split; [reflexivity|].
  cbn [firstn skipn Nat.sub].
  split; [reflexivity|].
  assert (Hx : forall c, is_lower_hex (hex_digit (code c / 16)) = true /\ is_lower_hex (hex_digit (code c mod 16)) = true).
  { intros c. pose proof (code_lt c). split; apply hex_digit_is_hex; lia. }
  split.
  - intros k c Hk. cbn [fmt_hex flat_map hex_byte app] in Hk.
    do 36 (destruct k as [|k]; [cbn [nth_error existsb Nat.eqb orb] in *; injection Hk as <-;
      first [reflexivity | apply Hx]|]).
    destruct k; discriminate.
  - rewrite !no_hyphens_app, !no_hyphens_hex. reflexivity.
Qed.

Lemma random_uid_recommended b u : length b = 16%nat -> random_uid (RandRead b 16) = Some u ->
  uid_recommended u = true.
Proof.
  intros Hl Hu. destruct (random_uid_hex b Hl) as [u' [Hu' [Hlen [Hk _]]]].
  assert (u' = u) by congruence. subst u'. apply uid_recommended_iff. split; [exact Hlen|].
  intros k Hin. destruct (nth_error u k) as [c|] eqn:E.
  - specialize (Hk k c E). cbn [In] in Hin.
    destruct Hin as [<-|[<-|[<-|[<-|[]]]]]; cbn [existsb Nat.eqb orb] in Hk; congruence.
  - apply nth_error_None in E. cbn [In] in Hin.
    destruct Hin as [<-|[<-|[<-|[<-|[]]]]]; lia.
Qed.

Lemma random_uid_inj b b' u : length b = 16%nat -> length b' = 16%nat ->
  random_uid (RandRead b 16) = Some u -> random_uid (RandRead b' 16) = Some u -> b = b'.
Proof.
  intros Hl Hl' Hu Hu'.
  destruct (random_uid_hex b Hl) as [x [Hx [_ [_ H1]]]].
  destruct (random_uid_hex b' Hl') as [y [Hy [_ [_ H2]]]].
  apply fmt_hex_inj. congruence.
Qed.

Lemma random_uid_error r : (r = RandErr \/ exists b n, r = RandRead b n /\ n <> 16) ->
  random_uid r = None.
Proof.
  intros [-> | [b [n [-> Hn]]]]; [reflexivity|]. unfold random_uid.
  destruct (Z.eqb_spec n 16); [congruence|reflexivity].
Qed.

(** ** CurrSymbol *)

Lemma fix_case_idem c d : fix_case c = Some d -> fix_case d = Some d /\ (65 <= code d <= 90)%N.
Proof.
  unfold fix_case. pose proof (code_lt c).
  destruct (97 <=? code c)%N eqn:E.
  - destruct ((65 <=? code c - 32)%N && (code c - 32 <=? 90)%N) eqn:E2; [|discriminate].
    intros [= <-]. rewrite code_chr by lia.
    replace (97 <=? code c - 32)%N with false by lia. rewrite E2. split; [reflexivity|lia].
  - destruct ((65 <=? code c)%N && (code c <=? 90)%N) eqn:E2; [|discriminate].
    intros [= <-]. rewrite chr_code. rewrite E, E2, chr_code. split; [reflexivity|lia].
Qed.

Lemma fix_case_all_idem s : forall t, fix_case_all s = Some t ->
  fix_case_all t = Some t /\ length t = length s /\ Forall (fun c => (65 <= code c <= 90)%N) t.
Proof.
  induction s as [|c s IH]; intros t H; cbn [fix_case_all] in H.
  - injection H as <-. repeat split; constructor.
  - destruct (fix_case c) as [d|] eqn:Ec; [|discriminate].
    destruct (fix_case_all s) as [t'|] eqn:Es; [|discriminate].
    injection H as <-. destruct (IH t' eq_refl) as [H1 [H2 H3]].
    apply fix_case_idem in Ec as [Ec Hr]. cbn [fix_case_all length]. rewrite Ec, H1.
    split; [reflexivity|]. split; [lia|]. constructor; assumption.
Qed.

Lemma parse_iso_shape e s c : parse_iso e s = Some c ->
  length s = 3%nat /\ length c = 3%nat /\ Forall (fun x => (65 <= code x <= 90)%N) c /\
  env_currency e c = true /\ parse_iso e c = Some c.
Proof.
  unfold parse_iso. destruct (Nat.eqb_spec (length s) 3) as [Hl|]; [|discriminate]. cbn [negb].
  destruct (fix_case_all s) as [k|] eqn:E; [|discriminate].
  destruct (env_currency e k) eqn:Et; [|discriminate]. intros [= <-].
  destruct (fix_case_all_idem s k E) as [H1 [H2 H3]].
  split; [exact Hl|]. split; [lia|]. split; [exact H3|]. split; [exact Et|].
  replace (length k) with 3%nat by lia. cbn [Nat.eqb negb]. rewrite H1, Et. reflexivity.
Qed.

Lemma upper_plain s : Forall (fun x => (65 <= code x <= 90)%N) s -> forallb plain s = true.
Proof.
  intros H. apply forallb_forall. intros x Hx. rewrite Forall_forall in H. specialize (H x Hx).
  unfold plain. lia.
Qed.

Lemma curr_round_trip e s c l r : curr_unmarshal e s = Some c -> ws_run l -> ws_run r ->
  curr_unmarshal e (l ++ curr_marshal c ++ r) = Some c.
Proof.
  intros H Hl Hr. unfold curr_unmarshal, curr_marshal in *.
  apply parse_iso_shape in H as [_ [_ [Hu [_ Hc]]]].
  rewrite trim_space_surround; [exact Hc|exact Hl|exact Hr|].
  apply trimmed_all_plain, upper_plain, Hu.
Qed.

Lemma new_curr_same e s t : trims_to s t -> curr_unmarshal e s = new_curr_symbol e t.
Proof. intros H. unfold curr_unmarshal, new_curr_symbol. rewrite (trim_space_complete s t H). reflexivity. Qed.

Lemma curr_equal_iff a b : curr_equal a b = true <-> a = b.
Proof. apply str_eqb_eq. Qed.

Lemma curr_valid_iff c : curr_valid c = true <-> c <> bs "XXX".
Proof. unfold curr_valid. rewrite negb_true_iff, str_eqb_neq. reflexivity. Qed.

(** Lower and upper case. *)
Definition case_variant (s t : str) : Prop :=
  Forall2 (fun a b => (65 <= code b <= 90)%N /\ (code a = code b \/ code a = code b + 32)%N) s t.

Lemma fix_case_all_iff s : forall t, fix_case_all s = Some t <-> case_variant s t.
Proof.
  induction s as [|c s IH]; intros t; cbn [fix_case_all].
  - split; [intros [= <-]; constructor|]. intros H. inversion H. reflexivity.
  - split.
    + destruct (fix_case c) as [d|] eqn:Ec; [|discriminate].
      destruct (fix_case_all s) as [t'|] eqn:Es; [|discriminate]. intros [= <-].
      constructor; [|apply IH; reflexivity].
      unfold fix_case in Ec. pose proof (code_lt c).
      destruct (97 <=? code c)%N eqn:E.
      * destruct ((65 <=? code c - 32)%N && (code c - 32 <=? 90)%N) eqn:E2; [|discriminate].
        injection Ec as <-. rewrite code_chr by lia. lia.
      * destruct ((65 <=? code c)%N && (code c <=? 90)%N) eqn:E2; [|discriminate].
        injection Ec as <-. rewrite chr_code. lia.
    + intros H. inversion H as [|a b l l' [Hb Hab] Hl]; subst.
      assert (fix_case c = Some b) as ->.
      { unfold fix_case. destruct (97 <=? code c)%N eqn:E.
        - replace (code c - 32)%N with (code b) by lia.
          replace ((65 <=? code b)%N && (code b <=? 90)%N) with true by lia. rewrite chr_code. reflexivity.
        - replace (code c) with (code b) by lia.
          replace ((65 <=? code b)%N && (code b <=? 90)%N) with true by lia. rewrite chr_code. reflexivity. }
      rewrite (proj2 (IH l') Hl). reflexivity.
Qed.

Lemma case_variant_length s t : case_variant s t -> length s = length t.
Proof. induction 1; cbn [length]; congruence. Qed.

Lemma new_curr_iff e s c : new_curr_symbol e s = Some c <->
  length c = 3%nat /\ case_variant s c /\ env_currency e c = true.
Proof.
  unfold new_curr_symbol, parse_iso. split.
  - destruct (Nat.eqb_spec (length s) 3) as [Hl|]; [|discriminate]. cbn [negb].
    destruct (fix_case_all s) as [k|] eqn:E; [|discriminate].
    destruct (env_currency e k) eqn:Et; [|discriminate]. intros [= <-].
    apply fix_case_all_iff in E. pose proof (case_variant_length _ _ E). split; [lia|]. auto.
  - intros [Hl [Hc He]]. pose proof (case_variant_length _ _ Hc) as Hl'.
    apply fix_case_all_iff in Hc. rewrite Hl', Hl. cbn [Nat.eqb negb]. rewrite Hc, He. reflexivity.
Qed.

Lemma random_uid_format b : length b = 16%nat ->
  exists u, random_uid (RandRead b 16) = Some u /\ length u = 36%nat /\
  (forall k c, nth_error u k = Some c ->
     if existsb (Nat.eqb k) [8; 13; 18; 23]%nat then c = "-"%char else is_lower_hex c = true) /\
  uid_recommended u = true.
Proof.
  intros H. destruct (random_uid_hex b H) as [u [H1 [H2 [H3 _]]]]. exists u.
  split; [exact H1|]. split; [exact H2|]. split; [exact H3|].
  apply (random_uid_recommended b); assumption.
Qed.
