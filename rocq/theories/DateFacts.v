(** Lemmas about the zone part of dates and Date round trips. *)
From Coq Require Import Lia ZifyBool ZifyNat ZifyN.
From Verif Require Import GoStr SpecStr SpecNum SpecDate GoStrFacts GoNum GoNumFacts GoRat GoTime
  Types CalFacts TimeFacts.
Ltac Zify.zify_post_hook ::= Z.div_mod_to_equations.
Local Open Scope Z_scope.

(** ** Parsing the zone value *)

Definition with_off (p : pstate) (off : Z) : pstate :=
  mkP (p_year p) (p_month p) (p_day p) (p_hour p) (p_min p) (p_sec p) (p_ns p) (p_utc p)
      (Some off) (p_name p).

Definition signed_off (h m : Z) : Z :=
  if h <? 0 then - ((- h * 60 + m) * 60) else (h * 60 + m) * 60.

Lemma fmt_02d_num m : 0 <= m < 100 -> num 2 m (fmt_02d m).
Proof. intros H. apply num_pad; [exact H|lia]. Qed.

Lemma fmt_plus_03d_shape h : -24 <= h <= 24 ->
  exists s, fmt_plus_03d h = (if h <? 0 then "-"%char else "+"%char) :: s /\ num 2 (Z.abs h) s.
Proof.
  intros H. unfold fmt_plus_03d. destruct (h <? 0) eqn:E.
  - exists (pad0 2 (fmt_nat (- h))). split; [reflexivity|]. replace (Z.abs h) with (- h) by lia.
    apply num_pad; [change (10 ^ Z.of_nat 2) with 100|]; lia.
  - exists (pad0 2 (fmt_nat h)). split; [reflexivity|]. replace (Z.abs h) with h by lia.
    apply num_pad; [change (10 ^ Z.of_nat 2) with 100|]; lia.
Qed.

Lemma parse_numtz h m r l p : -24 <= h <= 24 -> 0 <= m <= 60 ->
  parse_chunks (CSpace :: CNumTZ :: l) p (" "%char :: fmt_plus_03d h ++ fmt_02d m ++ r) =
  parse_chunks l (with_off p (signed_off h m)) r.
Proof.
  intros Hh Hm. destruct (fmt_plus_03d_shape h Hh) as [s [Hs Hn]].
  pose proof (fmt_02d_num m ltac:(lia)) as Hm2.
  destruct (num2_inv _ _ Hn) as [a [b [-> [Ha [Hb Hab]]]]].
  destruct (num2_inv _ _ Hm2) as [c [d [Hcd [Hc [Hd Hv]]]]].
  rewrite Hs, Hcd. cbn [parse_chunks parse_chunk skip_space app].
  change (Ascii.eqb " " " ") with true. cbv iota.
  assert (Hcut : cut_space (" "%char :: (if h <? 0 then "-"%char else "+"%char) :: a :: b :: c :: d :: r) =
          (if h <? 0 then "-"%char else "+"%char) :: a :: b :: c :: d :: r)
    by (destruct (h <? 0); reflexivity).
  rewrite Hcut. clear Hcut.
  cbn [length Nat.ltb Nat.leb skipn firstn].
  pose proof (getnum_num true (Z.abs h) [a; b] [] Hn) as G1. rewrite app_nil_r in G1.
  rewrite Hcd in Hm2. pose proof (getnum_num true m [c; d] [] Hm2) as G2. rewrite app_nil_r in G2.
  rewrite G1, G2.
  replace (24 <? Z.abs h) with false by lia. replace (60 <? m) with false by lia.
  unfold with_off, signed_off. destruct (h <? 0) eqn:E.
  - change (has_prefix (bs "+") ("-"%char :: a :: b :: c :: d :: r)) with false.
    change (has_prefix (bs "-") ("-"%char :: a :: b :: c :: d :: r)) with true. cbv iota.
    replace (Z.abs h) with (- h) by lia. reflexivity.
  - change (has_prefix (bs "+") ("+"%char :: a :: b :: c :: d :: r)) with true. cbv iota.
    replace (Z.abs h) with h by lia. reflexivity.
Qed.

Lemma upper_eqb c k : is_upper c = true -> is_upper k = false -> Ascii.eqb c k = false.
Proof.
  intros H Hk. destruct (Ascii.eqb_spec c k) as [->|]; [congruence|reflexivity].
Qed.

Lemma upper_eqb' c k : is_upper c = true -> is_upper k = false -> Ascii.eqb k c = false.
Proof.
  intros H Hk. destruct (Ascii.eqb_spec k c) as [->|]; [congruence|reflexivity].
Qed.

Lemma upper_letters_forallb n : upper_letters n <-> forallb is_upper n = true.
Proof.
  unfold upper_letters. rewrite Forall_forall, forallb_forall. unfold is_upper.
  split; intros H c Hc; specialize (H c Hc); lia.
Qed.

Lemma upper_run_all n : forallb is_upper n = true -> upper_run n = length n.
Proof.
  induction n as [|c n IH]; [reflexivity|]. cbn [forallb upper_run length].
  intros H. apply andb_true_iff in H as [-> H]. rewrite (IH H). reflexivity.
Qed.

Lemma no_prefix_false p s : (forall r, s <> p ++ r) -> has_prefix p s = false.
Proof.
  intros H. destruct (has_prefix p s) eqn:E; [|reflexivity].
  apply has_prefix_spec in E as [r ->]. destruct (H r). reflexivity.
Qed.

Lemma parse_time_zone_abbr off n : abbreviation off n -> n <> bs "UTC" ->
  has_prefix (bs "UTC") n = false /\ parse_time_zone n = Some (length n).
Proof.
  intros [Hu Hc] Hne. apply upper_letters_forallb in Hu. pose proof (upper_run_all n Hu) as Hrun.
  assert (Hch : forall a s r, is_upper a = true -> In s [bs "ChST"; bs "MeST"] ->
            has_prefix s (a :: r) = true -> forallb is_upper (a :: r) = true -> False).
  { intros a s r Ha Hin Hp Hall. apply has_prefix_spec in Hp as [q Hq].
    rewrite Hq in Hall. repeat (destruct Hin as [<-|Hin]; [discriminate Hall|]). destruct Hin. }
  assert (Hfirst : (3 <= length n)%nat /\ has_prefix (bs "ChST") n = false /\ has_prefix (bs "MeST") n = false /\
            has_prefix (bs "+") n = false /\ has_prefix (bs "-") n = false).
  { assert (H3 : (3 <= length n)%nat).
    { destruct Hc as [[-> _]|[[H _]|[[[H _]|[->|[H _]]] _]]]; cbn; lia. }
    split; [exact H3|]. destruct n as [|a n]; [cbn in H3; lia|].
    pose proof Hu as Hu'. cbn [forallb] in Hu'. apply andb_true_iff in Hu' as [Ha _].
    repeat split.
    - destruct (has_prefix (bs "ChST") (a :: n)) eqn:E; [|reflexivity].
      destruct (Hch a (bs "ChST") n Ha ltac:(cbn; tauto) E Hu).
    - destruct (has_prefix (bs "MeST") (a :: n)) eqn:E; [|reflexivity].
      destruct (Hch a (bs "MeST") n Ha ltac:(cbn; tauto) E Hu).
    - change (has_prefix (bs "+") (a :: n)) with (Ascii.eqb "+" a && has_prefix [] n).
      rewrite upper_eqb' by (assumption || reflexivity). reflexivity.
    - change (has_prefix (bs "-") (a :: n)) with (Ascii.eqb "-" a && has_prefix [] n).
      rewrite upper_eqb' by (assumption || reflexivity). reflexivity. }
  destruct Hfirst as [H3 [H4 [H5 [H6 H7]]]].
  unfold parse_time_zone. rewrite H4, H5, H6, H7, Hrun.
  replace (Nat.ltb (length n) 3) with false by (symmetry; apply Nat.ltb_ge; exact H3).
  cbn [orb].
  destruct Hc as [[-> _]|[[Hl Hn]|[Hl [Hutc Hgmt]]]]; [congruence| |].
  - destruct n as [|a [|b [|c [|? ?]]]]; cbn [length] in Hl; try lia. split.
    + destruct (has_prefix (bs "UTC") [a; b; c]) eqn:E; [|reflexivity].
      apply has_prefix_spec in E as [r Hr]. destruct r; [rewrite app_nil_r in Hr; congruence|discriminate].
    + destruct (has_prefix (bs "GMT") [a; b; c]); reflexivity.
  - rewrite (no_prefix_false _ _ Hutc), (no_prefix_false _ _ Hgmt). split; [reflexivity|].
    destruct Hl as [[Hl [q ->]]|[->|[Hl [q ->]]]].
    + rewrite app_length in Hl. destruct q as [|a [|b [|c [|? ?]]]]; cbn [length bs] in Hl; try (cbn in Hl; lia).
      reflexivity.
    + reflexivity.
    + rewrite app_length in Hl. destruct q as [|a [|b [|c [|d [|? ?]]]]]; cbn [length bs] in Hl; try (cbn in Hl; lia).
      reflexivity.
Qed.

(** State after the zone abbreviation. *)
Definition with_name (p : pstate) (n : str) : pstate :=
  if str_eqb n (bs "UTC") then
    mkP (p_year p) (p_month p) (p_day p) (p_hour p) (p_min p) (p_sec p) (p_ns p) true
        (p_off p) (p_name p)
  else
    mkP (p_year p) (p_month p) (p_day p) (p_hour p) (p_min p) (p_sec p) (p_ns p) (p_utc p)
        (p_off p) n.

Lemma abbr_head off n : abbreviation off n -> exists a r, n = a :: r /\ is_upper a = true.
Proof.
  intros [Hu Hc]. apply upper_letters_forallb in Hu. destruct n as [|a r].
  - exfalso. destruct Hc as [[H _]|[[H _]|[[[H _]|[H|[H _]]] _]]]; discriminate.
  - cbn [forallb] in Hu. apply andb_true_iff in Hu as [Ha _]. eauto.
Qed.

Lemma parse_name off n p : abbreviation off n ->
  parse_chunks [CSpace; CTZ] p (" "%char :: n) = Some (with_name p n).
Proof.
  intros H. destruct (abbr_head off n H) as [a [r [Hn Ha]]].
  cbn [parse_chunks parse_chunk skip_space]. change (Ascii.eqb " " " ") with true. cbv iota.
  assert (Hcut : cut_space (" "%char :: n) = n).
  { cbn [cut_space]. change (Ascii.eqb " " " ") with true. cbv iota. rewrite Hn. cbn [cut_space].
    rewrite upper_eqb by (assumption || reflexivity). reflexivity. }
  rewrite Hcut. unfold with_name. destruct (str_eqb_spec n (bs "UTC")) as [->|Hne].
  - reflexivity.
  - destruct (parse_time_zone_abbr off n H Hne) as [-> ->].
    rewrite skipn_all, firstn_all. reflexivity.
Qed.

(** ** The zone notation *)

Lemma digit_run_stop ds r : forallb is_digit ds = true ->
  match r with c :: _ => is_digit c = false | [] => True end ->
  digit_run (ds ++ r) = length ds.
Proof.
  intros Hd Hr. induction ds as [|c ds IH].
  - destruct r as [|c r]; [reflexivity|]. cbn [app digit_run length]. rewrite Hr. reflexivity.
  - cbn [forallb] in Hd. apply andb_true_iff in Hd as [Hc Hd]. cbn [app digit_run length].
    rewrite Hc, (IH Hd). reflexivity.
Qed.

Definition name_suffix (n : str) : str := match n with [] => [] | _ => ":"%char :: n end.

Lemma name_suffix_part n : forallb is_upper n = true -> zone_name_part (name_suffix n) = Some n.
Proof.
  intros H. destruct n as [|c n]; [reflexivity|].
  cbn [name_suffix zone_name_part]. change (Ascii.eqb ":" ":") with true. cbv iota. rewrite H. reflexivity.
Qed.

(** The sign of an integer text is at its front only. *)
Lemma zone_match_gen sh h rest : integer sh h ->
  match rest with c :: _ => is_digit c = false | [] => True end ->
  zone_match (sh ++ rest) =
  match rest with
  | c :: c1 :: c2 :: s3 =>
      if Ascii.eqb c "." && is_digit c1 && is_digit c2 then
        match zone_name_part s3 with Some name => Some (sh, [c1; c2], name) | None => None end
      else match zone_name_part rest with Some name => Some (sh, [], name) | None => None end
  | _ => match zone_name_part rest with Some name => Some (sh, [], name) | None => None end
  end.
Proof.
  intros [sign [body [n [-> [Hne [Hd Hs]]]]]] Hr.
  apply digits_iff in Hd as [Hd _]. unfold zone_match.
  match goal with |- (let '(_, _) := ?X in _) = _ => assert (Hsplit : X = (sign, body ++ rest)) end.
  { destruct Hs as [[-> _]|[[-> _]|[-> _]]].
    - cbn [app]. destruct body as [|c body]; [congruence|]. cbn [app].
      cbn [forallb] in Hd. apply andb_true_iff in Hd as [Hc _].
      rewrite (digit_not c "+"), (digit_not c "-") by (exact Hc || (cbn; lia)). reflexivity.
    - reflexivity.
    - reflexivity. }
  rewrite Hsplit, (digit_run_stop body rest Hd Hr).
  rewrite firstn_app, Nat.sub_diag, firstn_O, app_nil_r, firstn_all.
  rewrite skipn_app, Nat.sub_diag, skipn_all. cbn [app skipn].
  destruct (length body) eqn:El; [destruct body; [congruence|discriminate]|].
  reflexivity.
Qed.

Lemma name_suffix_nodigit n : match name_suffix n with c :: _ => is_digit c = false | [] => True end.
Proof. destruct n; [exact I|reflexivity]. Qed.

Lemma zone_match_whole sh h n : integer sh h -> forallb is_upper n = true ->
  zone_match (sh ++ name_suffix n) = Some (sh, [], n).
Proof.
  intros Hi Hn. rewrite (zone_match_gen sh h _ Hi (name_suffix_nodigit n)).
  rewrite (name_suffix_part n Hn). destruct n as [|a [|b n]]; reflexivity.
Qed.

Lemma zone_match_frac sh h f sf n : integer sh h -> num 2 f sf -> forallb is_upper n = true ->
  zone_match (sh ++ "."%char :: sf ++ name_suffix n) = Some (sh, sf, n).
Proof.
  intros Hi Hf Hn. destruct (num2_inv _ _ Hf) as [a [b [-> [Ha [Hb _]]]]].
  rewrite (zone_match_gen sh h _ Hi) by reflexivity. cbn [app].
  change (Ascii.eqb "." ".") with true. rewrite Ha, Hb. cbn [andb].
  rewrite (name_suffix_part n Hn). reflexivity.
Qed.

Lemma integer_small sh h : integer sh h -> -24 <= h <= 24 -> parse_int sh = Some h.
Proof. intros Hi Hh. apply parse_int_iff. split; [exact Hi|]. unfold int64_range. lia. Qed.

(** The characters of zone texts. *)
Definition zone_char (c : ascii) : bool :=
  is_digit c || is_upper c || Ascii.eqb c "+" || Ascii.eqb c "-" || Ascii.eqb c "." || Ascii.eqb c ":".

Lemma zone_char_not c : zone_char c = true -> c <> "["%char /\ c <> "]"%char /\ plain c = true.
Proof.
  unfold zone_char. rewrite !orb_true_iff, !Ascii.eqb_eq. unfold is_digit, is_upper, plain.
  intros H. repeat split; [intros ->; cbn in H|intros ->; cbn in H|].
  1,2: repeat (destruct H as [H|H]); discriminate.
  repeat (destruct H as [H|H]); first [lia | subst c; reflexivity].
Qed.

Lemma integer_zone_chars sh h : integer sh h -> forallb zone_char sh = true.
Proof.
  intros [sign [body [n [-> [_ [Hd Hs]]]]]]. apply digits_iff in Hd as [Hd _].
  rewrite forallb_app. apply andb_true_iff. split.
  - destruct Hs as [[-> _]|[[-> _]|[-> _]]]; reflexivity.
  - apply forallb_forall. intros c Hc. rewrite forallb_forall in Hd. unfold zone_char.
    rewrite (Hd c Hc). reflexivity.
Qed.

Lemma suffix_zone_chars n : forallb is_upper n = true -> forallb zone_char (name_suffix n) = true.
Proof.
  intros H. destruct n as [|a n]; [reflexivity|].
  unfold name_suffix. change (forallb zone_char (":"%char :: a :: n)) with (forallb zone_char (a :: n)).
  apply forallb_forall. intros c Hc. rewrite forallb_forall in H. unfold zone_char.
  rewrite (H c Hc). rewrite orb_true_r. reflexivity.
Qed.

Lemma digits_zone_chars s : forallb is_digit s = true -> forallb zone_char s = true.
Proof.
  intros H. apply forallb_forall. intros c Hc. rewrite forallb_forall in H. unfold zone_char.
  rewrite (H c Hc). reflexivity.
Qed.

Lemma zone_trim s : forallb zone_char s = true -> trim_right_char "]" s = s.
Proof.
  intros H. rewrite <- (app_nil_r s) at 1. apply (trim_right_char_repeat "]" 0 s).
  intros s' ->. rewrite forallb_app in H. apply andb_true_iff in H as [_ H].
  discriminate H.
Qed.

Lemma zone_text_chars off n z : upper_letters n -> zone_text off n z -> forallb zone_char z = true.
Proof.
  intros Hu Hz. apply upper_letters_forallb in Hu. destruct Hz as [h sh n Hi Hh|h f sh sf n Hi Hh Hf Hneg].
  - rewrite forallb_app, (integer_zone_chars sh h Hi). apply (suffix_zone_chars n Hu).
  - rewrite forallb_app, (integer_zone_chars sh h Hi). cbn [andb].
    change (forallb zone_char (sf ++ name_suffix n) = true).
    rewrite forallb_app, (digits_zone_chars sf (num_digits _ _ _ Hf)). apply (suffix_zone_chars n Hu).
Qed.

(** What date_zone makes of a zone text: hours and minutes that parse back to
    the offset. *)
Lemma date_zone_text off n z : upper_letters n -> zone_text off n z ->
  exists h m, -24 <= h <= 24 /\ 0 <= m <= 59 /\ signed_off h m = off /\
    (off = 0 <-> h = 0 /\ m = 0) /\
    date_zone z =
    let zone := " "%char :: fmt_plus_03d h ++ fmt_02d m in
    match n with
    | _ :: _ => Some (zone ++ " "%char :: n, [CSpace; CNumTZ; CSpace; CTZ])
    | [] => if off =? 0 then Some (zone ++ bs " GMT", [CSpace; CNumTZ; CSpace; CTZ])
            else Some (zone, [CSpace; CNumTZ])
    end.
Proof.
  intros Hu Hz. pose proof (zone_text_chars off n z Hu Hz) as Hch.
  unfold date_zone. rewrite (zone_trim z Hch). apply upper_letters_forallb in Hu.
  destruct Hz as [h sh n Hi Hh|h f sh sf n Hi Hh Hf Hneg].
  - exists h, 0. change (match n with [] => [] | _ :: _ => ":"%char :: n end) with (name_suffix n).
    rewrite (zone_match_whole sh h n Hi Hu).
    rewrite (integer_small sh h Hi Hh). unfold signed_off.
    split; [exact Hh|]. split; [lia|]. split; [destruct (h <? 0) eqn:E; lia|]. split; [lia|].
    destruct n as [|a n]; [|reflexivity].
    replace (h * 3600 =? 0) with ((h =? 0) && (0 =? 0)) by lia. reflexivity.
  - exists h, (f * 60 / 100).
    change (match n with [] => [] | _ :: _ => ":"%char :: n end) with (name_suffix n).
    rewrite (zone_match_frac sh h f sf n Hi Hf Hu).
    rewrite (integer_small sh h Hi Hh).
    pose proof (num_range _ _ _ Hf) as Hfr. change (10 ^ Z.of_nat 2) with 100 in Hfr.
    destruct (num2_inv _ _ Hf) as [a [b [Hsf [Ha [Hb Hv]]]]]. rewrite Hsf.
    assert (Hp : parse_int [a; b] = Some f).
    { rewrite <- Hsf. destruct Hf as [_ Hd]. apply digits_iff in Hd as [Hd <-].
      apply parse_int_digits; [congruence|exact Hd|lia]. }
    rewrite Hp. rewrite (Z.quot_div_nonneg (f * 60) 100) by lia.
    unfold signed_off. set (m := f * 60 / 100) in *.
    assert (Hm : 0 <= m <= 59) by (unfold m; lia). clearbody m.
    split; [exact Hh|]. split; [exact Hm|]. split; [destruct (h <? 0) eqn:E; lia|].
    split; [destruct (h <? 0) eqn:E; lia|].
    destruct n as [|a' n]; [|reflexivity].
    replace (h * 3600 + (if h <? 0 then - (m * 60) else m * 60) =? 0)
      with ((h =? 0) && (m =? 0)) by (destruct (h <? 0) eqn:E; lia). reflexivity.
Qed.

(** ** Decoding dates *)

Lemma date_text_nonempty c t : date_text c t -> exists a r, t = a :: r /\ is_digit a = true.
Proof.
  intros H. assert (Hy : exists y sy r, num 4 y sy /\ t = sy ++ r) by (destruct H; eauto).
  destruct Hy as [y [sy [r [Hn ->]]]]. pose proof (num_digits _ _ _ Hn) as Hd. destruct Hn as [Hl _].
  destruct sy as [|a sy]; [discriminate|]. cbn [forallb] in Hd. apply andb_true_iff in Hd as [Ha _].
  exists a, (sy ++ r). auto.
Qed.

Lemma date_text_chars c t : date_text c t -> forallb zone_char t = true.
Proof.
  intros H. destruct H;
    repeat match goal with Hn : num _ _ _ |- _ => apply num_digits, digits_zone_chars in Hn end;
    rewrite ?forallb_app; cbn [forallb]; rewrite ?forallb_app;
    repeat match goal with Hn : forallb _ _ = true |- _ => rewrite Hn; clear Hn end; reflexivity.
Qed.

(** The civil time of a text is in range iff its fields are. *)
Lemma civil_ok_text c t : date_text c t ->
  (civil_ok c <-> hms_ok c = true /\ (cd c <? 1) || (days_in (cmo c) (cy c) <? cd c) = false).
Proof.
  intros H.
  assert (Hr : 0 <= cy c <= 9999 /\ 0 <= cmo c /\ 0 <= cd c /\ 0 <= ch c /\ 0 <= cmi c /\ 0 <= cs c /\
               0 <= cms c <= 999).
  { destruct H; cbn [cy cmo cd ch cmi cs cms];
      repeat match goal with Hn : num _ _ _ |- _ => apply num_range in Hn end;
      change (10 ^ Z.of_nat 4) with 10000 in *; change (10 ^ Z.of_nat 2) with 100 in *;
      change (10 ^ Z.of_nat 3) with 1000 in *; lia. }
  unfold civil_ok, hms_ok. split.
  - intros [? [? [? [? [? [? ?]]]]]]. rewrite days_in_month_len by lia. lia.
  - intros [? ?]. rewrite days_in_month_len in * by lia. lia.
Qed.

Lemma go_date_instant c off name : civil_ok c ->
  go_date (cy c) (cmo c) (cd c) (ch c) (cmi c) (cs c) (cms c * 1000000) off name =
  mkTime (instant c off) off name.
Proof.
  intros [? [? _]]. unfold go_date, instant. rewrite days_of_civil_spec by lia. reflexivity.
Qed.

(** The zone name a decoded date gets: an unnamed offset takes the name of the
    local zone when that has the same offset (time.Parse). *)
Definition decoded_zone (e : env) (ns off : Z) (n : str) : str :=
  match n with
  | _ :: _ => n
  | [] => if off =? 0 then bs "GMT"
          else let '(lname, loff) := env_local e (ns / 1000000000) in
               if loff =? off then lname else []
  end.

Lemma finish_named local c off n : abbreviation off n -> civil_ok c ->
  finish local (with_name (with_off (p_fields c) off) n) = Some (mkTime (instant c off) off n).
Proof.
  intros Ha Hok. destruct (abbr_head off n Ha) as [a [r [Hn _]]].
  unfold with_name. destruct (str_eqb_spec n (bs "UTC")) as [->|Hne].
  - assert (off = 0) as ->.
    { destruct Ha as [_ [[_ H]|[[_ H]|[[[H _]|[H|[H _]]] [Hu _]]]]].
      - exact H. - congruence. - discriminate H. - discriminate H. - discriminate H. }
    unfold finish, with_off, p_fields. cbn [p_year p_month p_day p_hour p_min p_sec p_ns p_utc p_off p_name].
    rewrite go_date_instant by exact Hok.
    destruct Hok as [? [? [? _]]]. rewrite days_in_month_len by lia.
    replace ((cd c <? 1) || (month_len (cy c) (cmo c) <? cd c)) with false by lia. reflexivity.
  - unfold finish, with_off, p_fields. cbn [p_year p_month p_day p_hour p_min p_sec p_ns p_utc p_off p_name].
    rewrite go_date_instant by exact Hok.
    destruct Hok as [? [? [? _]]]. rewrite days_in_month_len by lia.
    replace ((cd c <? 1) || (month_len (cy c) (cmo c) <? cd c)) with false by lia.
    destruct (local _) as [lname loff]. rewrite Hn, andb_false_r. reflexivity.
Qed.

Lemma finish_unnamed local c off : civil_ok c ->
  finish local (with_off (p_fields c) off) =
  Some (mkTime (instant c off) off
         (let '(lname, loff) := local (instant c off / 1000000000) in if loff =? off then lname else [])).
Proof.
  intros Hok.
  unfold finish, with_off, p_fields. cbn [p_year p_month p_day p_hour p_min p_sec p_ns p_utc p_off p_name].
  rewrite go_date_instant by exact Hok. cbn [t_ns].
  destruct Hok as [? [? [? _]]]. rewrite days_in_month_len by lia.
  replace ((cd c <? 1) || (month_len (cy c) (cmo c) <? cd c)) with false by lia.
  change sec_ns with 1000000000.
  destruct (local (instant c off / 1000000000)) as [lname loff]. rewrite andb_true_r.
  destruct (loff =? off); reflexivity.
Qed.

Lemma finish_bad local c p : (cd c <? 1) || (days_in (cmo c) (cy c) <? cd c) = true ->
  p_day p = cd c -> p_month p = cmo c -> p_year p = cy c -> finish local p = None.
Proof. intros H H1 H2 H3. unfold finish. rewrite H1, H2, H3, H. reflexivity. Qed.

Lemma abbreviation_gmt : abbreviation 0 (bs "GMT").
Proof.
  split; [apply upper_letters_forallb; reflexivity|]. right. left. split; [reflexivity|discriminate].
Qed.

(** Reading a date text followed by a zone value. *)
Lemma try_named local c t h m n off : date_text c t -> -24 <= h <= 24 -> 0 <= m <= 60 ->
  signed_off h m = off -> abbreviation off n ->
  try_formats local date_formats [CSpace; CNumTZ; CSpace; CTZ]
    (t ++ (" "%char :: fmt_plus_03d h ++ fmt_02d m) ++ " "%char :: n) =
  (if hms_ok c && negb ((cd c <? 1) || (days_in (cmo c) (cy c) <? cd c))
   then Some (mkTime (instant c off) off n) else None).
Proof.
  intros Ht Hh Hm Hoff Ha.
  rewrite (try_formats_text local c t _ [CNumTZ; CSpace; CTZ] Ht) by (eexists; reflexivity).
  pose proof (civil_ok_text c t Ht) as Hok.
  destruct (hms_ok c) eqn:E1; [|reflexivity]. cbn [andb].
  cbn [app]. rewrite <- app_assoc, (parse_numtz h m _ _ _ Hh Hm), (parse_name off n _ Ha), Hoff.
  destruct ((cd c <? 1) || (days_in (cmo c) (cy c) <? cd c)) eqn:E2; cbn [negb].
  - apply (finish_bad local c); [exact E2| | |]; unfold with_name; destruct (str_eqb _ _); reflexivity.
  - apply finish_named; [exact Ha|apply Hok; auto].
Qed.

Lemma try_unnamed local c t h m off : date_text c t -> -24 <= h <= 24 -> 0 <= m <= 60 ->
  signed_off h m = off ->
  try_formats local date_formats [CSpace; CNumTZ]
    (t ++ " "%char :: fmt_plus_03d h ++ fmt_02d m) =
  (if hms_ok c && negb ((cd c <? 1) || (days_in (cmo c) (cy c) <? cd c))
   then Some (mkTime (instant c off) off
         (let '(lname, loff) := local (instant c off / 1000000000) in if loff =? off then lname else []))
   else None).
Proof.
  intros Ht Hh Hm Hoff.
  rewrite (try_formats_text local c t _ [CNumTZ] Ht) by (eexists; reflexivity).
  pose proof (civil_ok_text c t Ht) as Hok.
  destruct (hms_ok c) eqn:E1; [|reflexivity]. cbn [andb].
  pose proof (parse_numtz h m [] [] (p_fields c) Hh Hm) as Hp. rewrite app_nil_r in Hp.
  rewrite Hp, Hoff. cbn [parse_chunks].
  destruct ((cd c <? 1) || (days_in (cmo c) (cy c) <? cd c)) eqn:E2; cbn [negb].
  - apply (finish_bad local c); [exact E2| | |]; reflexivity.
  - apply finish_unnamed. apply Hok; auto.
Qed.

Lemma civil_dec_text c t : date_text c t ->
  (civil_ok c /\ hms_ok c && negb ((cd c <? 1) || (days_in (cmo c) (cy c) <? cd c)) = true) \/
  (~ civil_ok c /\ hms_ok c && negb ((cd c <? 1) || (days_in (cmo c) (cy c) <? cd c)) = false).
Proof.
  intros Ht. pose proof (civil_ok_text c t Ht) as H.
  destruct (hms_ok c); destruct ((cd c <? 1) || (days_in (cmo c) (cy c) <? cd c)); cbn [andb negb].
  - right. split; [|reflexivity]. rewrite H. intros [_ ?]; discriminate.
  - left. split; [|reflexivity]. apply H. auto.
  - right. split; [|reflexivity]. rewrite H. intros [? _]; discriminate.
  - right. split; [|reflexivity]. rewrite H. intros [? _]; discriminate.
Qed.

Lemma zone_chars_not_in s c : forallb zone_char s = true -> c = "["%char \/ c = "]"%char -> ~ In c s.
Proof.
  intros H Hc Hin. rewrite forallb_forall in H. apply H, zone_char_not in Hin as [? [? _]].
  destruct Hc; contradiction.
Qed.

Lemma ws_not_bracket l c : ws_run l -> c = "["%char \/ c = "]"%char -> ~ In c l.
Proof.
  intros Hl Hc. induction Hl as [|w s [r [Hr ->]] Hs IH]; [intros []|].
  rewrite in_app_iff. intros [Hin|Hin]; [|exact (IH Hin)].
  cbn [In space_runes] in Hr.
  repeat (destruct Hr as [<-|Hr]; [vm_compute in Hin; destruct Hc as [-> | ->];
    repeat (destruct Hin as [Hin|Hin]; [discriminate Hin|]); exact Hin|]). exact Hr.
Qed.

(** *** Bracketed zones *)

Lemma zone_chars_trimmed a b : forallb zone_char a = true -> forallb zone_char b = true ->
  trimmed (a ++ "["%char :: b).
Proof.
  intros Ha Hb. apply trimmed_all_plain. rewrite forallb_app. cbn [forallb].
  assert (Hp : forall s, forallb zone_char s = true -> forallb plain s = true).
  { intros s Hs. apply forallb_forall. intros c Hc. rewrite forallb_forall in Hs.
    apply zone_char_not, Hs, Hc. }
  rewrite (Hp a Ha), (Hp b Hb). reflexivity.
Qed.

Lemma date_unmarshal_bracket e l t z rest : ws_run l -> forallb zone_char t = true ->
  forallb zone_char z = true ->
  date_unmarshal e (l ++ t ++ "["%char :: z ++ "]"%char :: rest) =
  match date_zone z with
  | None => None
  | Some (zone, zfmt) => try_formats (env_local e) date_formats zfmt (t ++ zone)
  end.
Proof.
  intros Hl Ht Hz. unfold date_unmarshal.
  change (bs "]") with ["]"%char]. change (bs "[") with ["["%char].
  replace (l ++ t ++ "["%char :: z ++ "]"%char :: rest)
    with ((l ++ t ++ "["%char :: z) ++ "]"%char :: rest)
    by (rewrite <- !app_assoc; reflexivity).
  rewrite split2_char.
  2:{ rewrite !in_app_iff. cbn [In]. intros [H|[H|[H|H]]].
      - exact (ws_not_bracket l _ Hl (or_intror eq_refl) H).
      - exact (zone_chars_not_in t _ Ht (or_intror eq_refl) H).
      - discriminate.
      - exact (zone_chars_not_in z _ Hz (or_intror eq_refl) H). }
  pose proof (trim_space_surround l (t ++ "["%char :: z) [] Hl ws_nil (zone_chars_trimmed t z Ht Hz)) as Htr.
  rewrite app_nil_r in Htr. rewrite Htr.
  rewrite split2_char by (apply (zone_chars_not_in t _ Ht (or_introl eq_refl))).
  reflexivity.
Qed.

Lemma date_decode_zone e c t off n z l rest :
  date_text c t -> zone_text off n z -> (n = [] \/ abbreviation off n) -> ws_run l ->
  (civil_ok c -> date_unmarshal e (l ++ t ++ "["%char :: z ++ "]"%char :: rest) =
     Some (mkTime (instant c off) off (decoded_zone e (instant c off) off n))) /\
  (~ civil_ok c -> date_unmarshal e (l ++ t ++ "["%char :: z ++ "]"%char :: rest) = None).
Proof.
  intros Ht Hz Hn Hl.
  assert (Hu : upper_letters n) by (destruct Hn as [->|[H _]]; [constructor|exact H]).
  rewrite (date_unmarshal_bracket e l t z rest Hl (date_text_chars c t Ht) (zone_text_chars off n z Hu Hz)).
  destruct (date_zone_text off n z Hu Hz) as [h [m [Hh [Hm [Hoff [H0 ->]]]]]]. cbv zeta.
  assert (Hm' : 0 <= m <= 60) by lia.
  destruct (civil_dec_text c t Ht) as [[Hok Eb]|[Hok Eb]].
  - split; [intros _|contradiction]. destruct n as [|a n].
    + cbn [decoded_zone]. destruct (off =? 0) eqn:E0.
      * apply Z.eqb_eq in E0. change (bs " GMT") with (" "%char :: bs "GMT").
        rewrite E0 in *. rewrite (try_named _ c t h m (bs "GMT") 0 Ht Hh Hm' Hoff abbreviation_gmt), Eb.
        reflexivity.
      * rewrite (try_unnamed _ c t h m off Ht Hh Hm' Hoff), Eb. reflexivity.
    + destruct Hn as [Hn|Hn]; [discriminate|].
      rewrite (try_named _ c t h m (a :: n) off Ht Hh Hm' Hoff Hn), Eb. reflexivity.
  - split; [contradiction|intros _]. destruct n as [|a n].
    + destruct (off =? 0) eqn:E0.
      * apply Z.eqb_eq in E0. change (bs " GMT") with (" "%char :: bs "GMT").
        rewrite E0 in *. rewrite (try_named _ c t h m (bs "GMT") 0 Ht Hh Hm' Hoff abbreviation_gmt), Eb.
        reflexivity.
      * rewrite (try_unnamed _ c t h m off Ht Hh Hm' Hoff), Eb. reflexivity.
    + destruct Hn as [Hn|Hn]; [discriminate|].
      rewrite (try_named _ c t h m (a :: n) off Ht Hh Hm' Hoff Hn), Eb. reflexivity.
Qed.

(** *** No zone *)

Lemma date_decode_plain e c t l r : date_text c t -> ws_run l -> ws_run r ->
  (civil_ok c -> date_unmarshal e (l ++ t ++ r) = Some (mkTime (instant c 0) 0 (bs "GMT"))) /\
  (~ civil_ok c -> date_unmarshal e (l ++ t ++ r) = None).
Proof.
  intros Ht Hl Hr. pose proof (date_text_chars c t Ht) as Hc. unfold date_unmarshal.
  change (bs "]") with ["]"%char]. change (bs "[") with ["["%char].
  rewrite (split2_none "]" (l ++ t ++ r)).
  2:{ rewrite !in_app_iff. intros [H|[H|H]].
      - exact (ws_not_bracket l _ Hl (or_intror eq_refl) H).
      - exact (zone_chars_not_in t _ Hc (or_intror eq_refl) H).
      - exact (ws_not_bracket r _ Hr (or_intror eq_refl) H). }
  rewrite (trim_space_surround l t r Hl Hr).
  2:{ apply trimmed_all_plain, forallb_forall. intros c' Hc'. rewrite forallb_forall in Hc.
      apply zone_char_not, Hc, Hc'. }
  rewrite (split2_none "[" t) by (apply (zone_chars_not_in t _ Hc (or_introl eq_refl))).
  change (bs " +0000 GMT") with ((" "%char :: fmt_plus_03d 0 ++ fmt_02d 0) ++ " "%char :: bs "GMT").
  rewrite (try_named _ c t 0 0 (bs "GMT") 0 Ht) by
    (exact abbreviation_gmt || reflexivity || lia).
  destruct (civil_dec_text c t Ht) as [[Hok ->]|[Hok ->]]; split; intros H; (reflexivity || contradiction).
Qed.

(** ** Printing dates *)

Lemma append_int_num x w : 0 <= x < 10 ^ Z.of_nat w -> (0 < w)%nat -> num w x (append_int x w).
Proof. intros Hx Hw. unfold append_int. replace (x <? 0) with false by lia. apply num_pad; assumption. Qed.

Lemma format_ms_text c off n : civil_ok c -> date_text c (format_ms (mkTime (instant c off) off n)).
Proof.
  intros Hok. pose proof Hok as [H1 [H2 [H3 [H4 [H5 [H6 H7]]]]]].
  unfold format_ms, local_secs. cbn [t_ns t_off].
  assert (Hs : instant c off / sec_ns + off =
               days_of_civil (cy c) (cmo c) (cd c) * 86400 + ch c * 3600 + cmi c * 60 + cs c).
  { unfold instant. rewrite days_of_civil_spec by lia. change sec_ns with 1000000000. lia. }
  rewrite Hs.
  assert (Hms : instant c off mod sec_ns / 1000000 = cms c).
  { unfold instant. change sec_ns with 1000000000. lia. }
  rewrite Hms.
  set (dn := days_of_civil (cy c) (cmo c) (cd c)).
  replace ((dn * 86400 + ch c * 3600 + cmi c * 60 + cs c) / 86400) with dn by lia.
  replace ((dn * 86400 + ch c * 3600 + cmi c * 60 + cs c) mod 86400) with (ch c * 3600 + cmi c * 60 + cs c) by lia.
  unfold dn. rewrite civil_of_days_of_civil by (try rewrite days_in_month_len by lia; lia).
  replace ((ch c * 3600 + cmi c * 60 + cs c) / 3600) with (ch c) by lia.
  replace ((ch c * 3600 + cmi c * 60 + cs c) mod 3600 / 60) with (cmi c) by lia.
  replace ((ch c * 3600 + cmi c * 60 + cs c) mod 60) with (cs c) by lia.
  assert (Hd : cd c <= 31) by (unfold month_len in H3; destruct (cmo c =? 2); [destruct (leapb (cy c))|destruct (_ || _)]; lia).
  destruct c as [y mo d h mi s ms]. cbn [cy cmo cd ch cmi cs cms] in *.
  apply text_milli; apply append_int_num; cbn; lia.
Qed.

(** The printed zone of a three-minute multiple. *)
Lemma printed_zone off n : Z.divide 180 off -> -90000 < off < 90000 -> ~ -3600 < off < 0 ->
  zone_text off n
    ((if off <? 0 then fmt_plus_d (Z.quot off 3600) else fmt_d (Z.quot off 3600)) ++
     (if 0 <? Z.quot (Z.rem off 3600) 36 then "."%char :: fmt_02d (Z.quot (Z.rem off 3600) 36)
      else if Z.quot (Z.rem off 3600) 36 <? 0 then "."%char :: fmt_02d (- Z.quot (Z.rem off 3600) 36) else []) ++
     name_suffix n).
Proof.
  intros [k ->] Hb Hno.
  assert (Hint : integer (if k * 180 <? 0 then fmt_plus_d (Z.quot (k * 180) 3600) else fmt_d (Z.quot (k * 180) 3600))
                         (Z.quot (k * 180) 3600)).
  { destruct (k * 180 <? 0) eqn:E; [|apply fmt_d_integer].
    assert (Hq : Z.quot (k * 180) 3600 <? 0 = true) by lia.
    unfold fmt_plus_d. rewrite Hq. pose proof (fmt_d_integer (Z.quot (k * 180) 3600)) as H.
    unfold fmt_d in H. rewrite Hq in H. exact H. }
  set (sh := if k * 180 <? 0 then _ else _) in *.
  assert (Hneg : forall r, sh = "-"%char :: r -> Z.quot (k * 180) 3600 < 0).
  { intros r Hr. unfold sh in Hr. destruct (k * 180 <? 0) eqn:E; [lia|].
    unfold fmt_d in Hr. destruct (Z.quot (k * 180) 3600 <? 0) eqn:E2; [lia|].
    pose proof (fmt_nat_digits (Z.quot (k * 180) 3600) ltac:(lia)) as Hd. rewrite Hr in Hd. discriminate. }
  clearbody sh.
  assert (Hhb : -24 <= Z.quot (k * 180) 3600 <= 24) by lia.
  assert (Hf : exists q j, k * 180 = 3600 * q + 180 * j /\ Z.quot (k * 180) 3600 = q /\
            Z.quot (Z.rem (k * 180) 3600) 36 = 5 * j /\ -20 < j < 20 /\ (0 <= k * 180 -> 0 <= q /\ 0 <= j) /\
            (k * 180 < 0 -> q < 0 /\ j <= 0)).
  { exists (Z.quot k 20), (Z.rem k 20).
    assert (Z.quot (k * 180) 3600 = Z.quot k 20).
    { change 3600 with (20 * 180). apply Z.quot_mul_cancel_r; lia. }
    assert (Z.rem (k * 180) 3600 = Z.rem k 20 * 180).
    { change 3600 with (20 * 180). apply Z.mul_rem_distr_r; lia. }
    assert (Hq5 : Z.quot (Z.rem k 20 * 180) 36 = 5 * Z.rem k 20).
    { replace (Z.rem k 20 * 180) with ((5 * Z.rem k 20) * 36) by lia. apply Z.quot_mul. lia. }
    split; [|split; [assumption|split; [congruence|]]]; Z.to_euclidean_division_equations; lia. }
  destruct Hf as [q [j [Hk [Hq [Hfr [Hj [Hp Hn]]]]]]]. rewrite Hq, Hfr in *.
  destruct (0 <? 5 * j) eqn:E1; [|destruct (5 * j <? 0) eqn:E2].
  - assert (Hr : 0 <= 5 * j < 100) by lia.
    pose proof (zone_frac q (5 * j) sh _ n Hint Hhb (fmt_02d_num _ Hr) Hneg) as Hz.
    change (match n with [] => [] | _ :: _ => ":"%char :: n end) with (name_suffix n) in Hz. cbn [app].
    match type of Hz with zone_text ?o _ _ => replace (k * 180) with o; [exact Hz|] end.
    replace (5 * j * 60 / 100) with (3 * j) by lia.
    destruct (q <? 0) eqn:E3; lia.
  - assert (Hr : 0 <= - (5 * j) < 100) by lia.
    pose proof (zone_frac q (- (5 * j)) sh _ n Hint Hhb (fmt_02d_num _ Hr) Hneg) as Hz.
    change (match n with [] => [] | _ :: _ => ":"%char :: n end) with (name_suffix n) in Hz. cbn [app].
    match type of Hz with zone_text ?o _ _ => replace (k * 180) with o; [exact Hz|] end.
    replace (- (5 * j) * 60 / 100) with (- 3 * j) by lia.
    destruct (q <? 0) eqn:E3; lia.
  - pose proof (zone_whole q sh n Hint Hhb) as Hz.
    change (match n with [] => [] | _ :: _ => ":"%char :: n end) with (name_suffix n) in Hz. cbn [app].
    match type of Hz with zone_text ?o _ _ => replace (k * 180) with o; [exact Hz|] end. lia.
Qed.

Lemma date_string_shape t : date_string t =
  format_ms t ++ "["%char ::
  ((if t_off t <? 0 then fmt_plus_d (Z.quot (t_off t) 3600) else fmt_d (Z.quot (t_off t) 3600)) ++
  (if 0 <? Z.quot (Z.rem (t_off t) 3600) 36 then "."%char :: fmt_02d (Z.quot (Z.rem (t_off t) 3600) 36)
   else if Z.quot (Z.rem (t_off t) 3600) 36 <? 0 then "."%char :: fmt_02d (- Z.quot (Z.rem (t_off t) 3600) 36)
   else []) ++ name_suffix (t_zone t)) ++ ["]"%char].
Proof.
  unfold date_string, name_suffix. rewrite <- !app_assoc. destruct (t_zone t); reflexivity.
Qed.

Lemma date_round_trip e c off n l r :
  civil_ok c -> Z.divide 180 off -> -90000 < off < 90000 -> ~ -3600 < off < 0 ->
  (n = [] \/ abbreviation off n) -> ws_run l ->
  date_unmarshal e (l ++ date_string (mkTime (instant c off) off n) ++ r) =
  Some (mkTime (instant c off) off (decoded_zone e (instant c off) off n)).
Proof.
  intros Hok Hdiv Hb Hno Hn Hl. rewrite date_string_shape. cbn [t_off t_zone].
  pose proof (printed_zone off n Hdiv Hb Hno) as Hz.
  set (z := _ ++ _ ++ name_suffix n) in *. clearbody z.
  rewrite <- app_assoc. cbn [app]. rewrite <- app_assoc. cbn [app].
  apply (date_decode_zone e c _ off n z l r (format_ms_text c off n Hok) Hz Hn Hl), Hok.
Qed.

(** C10: the sign of an offset strictly between -1h and 0 is lost. *)
Lemma date_sign_lost e c off n l r :
  civil_ok c -> Z.divide 180 off -> -3600 < off < 0 -> (n = [] \/ abbreviation (- off) n) -> ws_run l ->
  exists t', date_unmarshal e (l ++ date_string (mkTime (instant c off) off n) ++ r) = Some t' /\
    t_off t' = - off /\ t_ns t' = instant c off + 2 * off * 1000000000.
Proof.
  intros Hok [k ->] Hno Hn Hl. rewrite date_string_shape. cbn [t_off t_zone].
  assert (Hz : zone_text (- (k * 180)) n
    ((if k * 180 <? 0 then fmt_plus_d (Z.quot (k * 180) 3600) else fmt_d (Z.quot (k * 180) 3600)) ++
     (if 0 <? Z.quot (Z.rem (k * 180) 3600) 36 then "."%char :: fmt_02d (Z.quot (Z.rem (k * 180) 3600) 36)
      else if Z.quot (Z.rem (k * 180) 3600) 36 <? 0 then "."%char :: fmt_02d (- Z.quot (Z.rem (k * 180) 3600) 36) else []) ++
     name_suffix n)).
  { replace (k * 180 <? 0) with true by lia.
    replace (Z.quot (k * 180) 3600) with 0 by (symmetry; rewrite <- (Z.opp_involutive (k * 180)), Z.quot_opp_l, Z.quot_small by lia; reflexivity).
    assert (Hf : Z.quot (Z.rem (k * 180) 3600) 36 = 5 * k).
    { replace (Z.rem (k * 180) 3600) with (5 * k * 36); [apply Z.quot_mul; lia|].
      rewrite <- (Z.opp_involutive (k * 180)), Z.rem_opp_l, Z.rem_small by lia. lia. }
    rewrite Hf. replace (0 <? 5 * k) with false by lia. replace (5 * k <? 0) with true by lia.
    assert (Hi : integer (fmt_plus_d 0) 0).
    { exists (bs "+"), (bs "0"), 0. split; [reflexivity|]. split; [discriminate|].
      split; [apply digits_iff; split; reflexivity|]. right. left. auto. }
    assert (H24 : -24 <= 0 <= 24) by lia.
    assert (Hneg : forall r, fmt_plus_d 0 = "-"%char :: r -> 0 < 0) by (intros r'; discriminate).
    assert (Hr : 0 <= - (5 * k) < 100) by lia.
    pose proof (zone_frac 0 (- (5 * k)) _ _ n Hi H24 (fmt_02d_num _ Hr) Hneg) as Hz.
    change (match n with [] => [] | _ :: _ => ":"%char :: n end) with (name_suffix n) in Hz. cbn [app].
    match type of Hz with zone_text ?o _ _ => replace (- (k * 180)) with o; [exact Hz|] end.
    change (0 <? 0) with false. replace (- (5 * k) * 60 / 100) with (- 3 * k) by lia. lia. }
  set (z := _ ++ _ ++ name_suffix n) in *. clearbody z.
  rewrite <- app_assoc. cbn [app]. rewrite <- app_assoc. cbn [app].
  destruct (date_decode_zone e c _ (- (k * 180)) n z l r (format_ms_text c (k * 180) n Hok) Hz Hn Hl) as [Hd _].
  rewrite (Hd Hok). eexists. split; [reflexivity|]. cbn [t_off t_ns]. split; [reflexivity|].
  unfold instant. lia.
Qed.

(** ** Equal *)

Lemma date_equal_iff a b : date_equal a b = true <-> t_ns a = t_ns b.
Proof. unfold date_equal, time_equal. apply Z.eqb_eq. Qed.

Lemma date_equal_equivalence :
  (forall a, date_equal a a = true) /\
  (forall a b, date_equal a b = true -> date_equal b a = true) /\
  (forall a b c, date_equal a b = true -> date_equal b c = true -> date_equal a c = true).
Proof. split; [|split]; intros *; rewrite ?date_equal_iff; congruence. Qed.

Lemma date_round_trip_named e c off n l r :
  civil_ok c -> Z.divide 180 off -> -90000 < off < 90000 -> ~ -3600 < off < 0 ->
  abbreviation off n -> ws_run l ->
  date_unmarshal e (l ++ date_string (mkTime (instant c off) off n) ++ r) =
  Some (mkTime (instant c off) off n).
Proof.
  intros Hok Hd Hb Hno Ha Hl. rewrite date_round_trip by (auto; lia).
  destruct (abbr_head off n Ha) as [a [q [-> _]]]. reflexivity.
Qed.

Lemma date_round_trip_unnamed e c off l r :
  civil_ok c -> Z.divide 180 off -> -90000 < off < 90000 -> ~ -3600 < off < 0 -> off <> 0 -> ws_run l ->
  exists name,
  date_unmarshal e (l ++ date_string (mkTime (instant c off) off []) ++ r) =
  Some (mkTime (instant c off) off name) /\
  (snd (env_local e (instant c off / 1000000000)) <> off -> name = []).
Proof.
  intros Hok Hd Hb Hno H0 Hl. rewrite date_round_trip by (auto; lia).
  eexists. split; [reflexivity|]. cbn [decoded_zone]. replace (off =? 0) with false by lia.
  destruct (env_local e _) as [lname loff]. cbn [snd]. intros Hne.
  replace (loff =? off) with false by lia. reflexivity.
Qed.

Lemma date_decode_instant e c t off n z l rest :
  date_text c t -> zone_text off n z -> (n = [] \/ abbreviation off n) -> ws_run l ->
  (civil_ok c -> exists name,
     date_unmarshal e (l ++ t ++ "["%char :: z ++ "]"%char :: rest) =
       Some (mkTime (instant c off) off name) /\ (n <> [] -> name = n)) /\
  (~ civil_ok c -> date_unmarshal e (l ++ t ++ "["%char :: z ++ "]"%char :: rest) = None).
Proof.
  intros Ht Hz Hn Hl. destruct (date_decode_zone e c t off n z l rest Ht Hz Hn Hl) as [H1 H2].
  split; [|exact H2]. intros Hok. eexists. split; [apply H1, Hok|].
  intros Hne. destruct n; [congruence|reflexivity].
Qed.

Lemma date_sign_refuted : exists e t t',
  -3600 < t_off t < 0 /\ date_unmarshal e (date_string t) = Some t' /\ t_ns t' <> t_ns t.
Proof.
  exists (mkEnv (fun _ => ([], 0)) (fun _ => false)).
  exists (mkTime (instant (mkCivil 2020 2 29 12 0 0 0) (-1800)) (-1800) (bs "ABC")).
  eexists. split; [split; reflexivity|]. split; [vm_compute; reflexivity|]. vm_compute. discriminate.
Qed.
