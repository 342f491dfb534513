(** The trees the library writes are documents: every element has a proper name,
    holds text XML can carry or other elements, and elements that hold elements
    are never simple elements of SGML. *)
From Coq Require Import QArith Lia Bool ZifyBool ZifyNat ZifyN.
From Coq Require Import List.
From Verif Require Import GoStr SpecStr SpecNum SpecDate GoStrFacts GoNum GoNumFacts GoRat RatFacts GoTime CalFacts
  Types TypesFacts Enums EnumTables EnumFacts Records Common Messages Codec CodecFacts
  SpecCodec Schema Document SpecDocument DocumentFacts SetsFacts SpecXml Utf8 Xml XmlFacts SpellFacts Leaves SpecWire.
Close Scope Q_scope.

(** ** Text *)

Definition ascii_text (s : str) : Prop := Forall (fun c => 32 <= code c <= 126)%N s.

Lemma ascii_xml s : ascii_text s -> xml_string s.
Proof.
  intros H. exists (map code s). split.
  - induction H; constructor; auto. unfold xml_code. lia.
  - induction H as [|c s Hc H IH]; [reflexivity|]. cbn [map concat]. rewrite <- IH.
    unfold utf8_char. destruct (N.ltb_spec (code c) 128); [|lia].
    cbn [app]. f_equal. symmetry. apply chr_code.
Qed.

Lemma ascii_app a b : ascii_text a -> ascii_text b -> ascii_text (a ++ b).
Proof. intros H1 H2. apply Forall_app. auto. Qed.

Lemma ascii_cons c s : (32 <= code c <= 126)%N -> ascii_text s -> ascii_text (c :: s).
Proof. intros. constructor; auto. Qed.

Lemma ascii_nil : ascii_text [].
Proof. constructor. Qed.

Lemma digits_ascii s : forallb is_digit s = true -> ascii_text s.
Proof.
  intros H. apply Forall_forall. intros c Hc. rewrite forallb_forall in H. apply H, is_digit_spec in Hc. lia.
Qed.

Lemma fmt_nat_ascii n : (0 <= n)%Z -> ascii_text (fmt_nat n).
Proof. intros H. apply digits_ascii, fmt_nat_digits, H. Qed.

Lemma pad0_ascii w n : (0 <= n)%Z -> ascii_text (pad0 w (fmt_nat n)).
Proof. intros H. apply digits_ascii, pad0_digits, H. Qed.

Ltac ascii_char := match goal with |- (32 <= code ?c <= 126)%N =>
  let n := eval vm_compute in (code c) in change (code c) with n; lia end.

Lemma fmt_d_ascii n : ascii_text (fmt_d n).
Proof.
  unfold fmt_d. destruct (Z.ltb_spec n 0).
  - apply ascii_cons; [ascii_char | apply fmt_nat_ascii; lia].
  - apply fmt_nat_ascii; lia.
Qed.

Lemma fmt_plus_d_ascii n : ascii_text (fmt_plus_d n).
Proof.
  unfold fmt_plus_d. destruct (Z.ltb_spec n 0);
    (apply ascii_cons; [ascii_char | apply fmt_nat_ascii; lia]).
Qed.

Lemma append_int_ascii n w : ascii_text (append_int n w).
Proof.
  unfold append_int. destruct (Z.ltb_spec n 0).
  - apply ascii_cons; [ascii_char | apply pad0_ascii; lia].
  - apply pad0_ascii; lia.
Qed.

Lemma trim_left_incl c s d : In d (trim_left_char c s) -> In d s.
Proof.
  induction s as [|x s IH]; cbn [trim_left_char]; auto.
  destruct (Ascii.eqb x c); intros H; [right; auto | exact H].
Qed.

Lemma trim_right_ascii c s : ascii_text s -> ascii_text (trim_right_char c s).
Proof.
  unfold ascii_text. rewrite !Forall_forall. intros H d Hd. apply H. unfold trim_right_char in Hd.
  apply in_rev, trim_left_incl in Hd. apply in_rev. exact Hd.
Qed.

Lemma repeat0_ascii n : ascii_text (repeat "0"%char n).
Proof. induction n; [apply ascii_nil|]. apply ascii_cons; [ascii_char | assumption]. Qed.

Lemma float_string_ascii x p : ascii_text (rat_float_string x p).
Proof.
  unfold rat_float_string. destruct (GoRat.rat_is_int x).
  - apply ascii_app; [apply fmt_d_ascii|]. destruct p; [apply ascii_nil|].
    apply ascii_cons; [ascii_char|apply repeat0_ascii].
  - set (den := Zpos (Qden x)). set (P := (10 ^ Z.of_nat p)%Z).
    assert (0 < P)%Z by (apply Z.pow_pos_nonneg; lia).
    assert (Hq : (0 <= Z.abs (Qnum x) / den)%Z) by (apply Z.div_pos; lia).
    assert (Hr0 : (0 <= Z.abs (Qnum x) mod den)%Z) by (apply Z.mod_pos_bound; lia).
    set (q := (Z.abs (Qnum x) / den)%Z) in *. set (r0 := (Z.abs (Qnum x) mod den)%Z) in *.
    assert (Hr : (0 <= r0 * P / den)%Z) by (apply Z.div_pos; lia).
    set (r := (r0 * P / den)%Z) in *. set (r2 := ((r0 * P) mod den)%Z).
    assert (Hqr : forall q r, (0 <= q)%Z -> (0 <= r)%Z ->
      ascii_text ((if (Qnum x <? 0)%Z then ["-"%char] else []) ++ fmt_nat q ++
        match p with O => [] | _ => "."%char :: pad0 p (fmt_nat r) end)).
    { intros q' r' H1 H2. apply ascii_app.
      - destruct (Qnum x <? 0)%Z; [apply ascii_cons; [ascii_char|apply ascii_nil] | apply ascii_nil].
      - apply ascii_app; [apply fmt_nat_ascii; auto|]. destruct p; [apply ascii_nil|].
        apply ascii_cons; [ascii_char | apply pad0_ascii; auto]. }
    destruct (den <=? r2 + r2)%Z; [|apply Hqr; auto].
    destruct (Z.leb_spec P (r + 1)); apply Hqr; lia.
Qed.

Lemma amount_ascii q : ascii_text (amount_string q).
Proof. apply trim_right_ascii, trim_right_ascii, float_string_ascii. Qed.

Lemma format_ms_ascii t : ascii_text (format_ms t).
Proof.
  unfold format_ms. destruct (civil_of_days (local_secs t / 86400)) as [[y m] d].
  repeat (apply ascii_app; [apply append_int_ascii|]). apply ascii_cons; [ascii_char | apply append_int_ascii].
Qed.

Lemma date_xml t : xml_string (t_zone t) -> xml_string (date_string t).
Proof.
  intros Hz. unfold date_string. apply xml_string_app; [apply ascii_xml, format_ms_ascii|].
  set (frac := Z.quot (Z.rem (t_off t) 3600) 36).
  change (xml_string ((bs "[" ++ (if (t_off t <? 0)%Z then fmt_plus_d (t_off t ÷ 3600) else fmt_d (t_off t ÷ 3600))) ++
     (if (0 <? frac)%Z then "."%char :: fmt_02d frac
      else if (frac <? 0)%Z then "."%char :: fmt_02d (- frac) else []) ++
     (match t_zone t with [] => [] | n => ":"%char :: n end) ++ ["]"%char])).
  apply xml_string_app; [|apply xml_string_app; [|apply xml_string_app]].
  - apply ascii_xml, ascii_app; [apply ascii_cons; [ascii_char|apply ascii_nil]|].
    destruct (t_off t <? 0)%Z; [apply fmt_plus_d_ascii | apply fmt_d_ascii].
  - apply ascii_xml. destruct (Z.ltb_spec 0 frac); [|destruct (Z.ltb_spec frac 0); [|apply ascii_nil]];
      (apply ascii_cons; [ascii_char | apply pad0_ascii; lia]).
  - destruct (t_zone t) as [|c n] eqn:E; [apply xml_string_nil|].
    change (":"%char :: c :: n) with (bs ":" ++ (c :: n)). apply xml_string_app; [|exact Hz].
    apply ascii_xml. apply ascii_cons; [ascii_char|apply ascii_nil].
  - apply ascii_xml. apply ascii_cons; [ascii_char|apply ascii_nil].
Qed.

(** ** Names *)

Definition container (nm : str) : Prop := fold_member nm ofx_leaf_elements = false.

Lemma member_In nm l : member nm l = true <-> In nm l.
Proof.
  unfold member. rewrite existsb_exists. split.
  - intros (x & Hx & E). apply str_eqb_eq in E. subst. exact Hx.
  - intros H. exists nm. split; [exact H | apply str_eqb_refl].
Qed.

Lemma simple_element_iff nm : simple_element nm <-> fold_member nm ofx_leaf_elements = true.
Proof. unfold fold_member. rewrite member_In. reflexivity. Qed.

Lemma container_iff nm : container nm <-> ~ simple_element nm.
Proof. rewrite simple_element_iff. unfold container. destruct (fold_member nm ofx_leaf_elements); split; congruence. Qed.

Definition name_start (c : ascii) : bool := is_upper c || is_lower c || (code c =? 95)%N.
Definition name_rest (c : ascii) : bool :=
  is_upper c || is_lower c || is_digit c || (code c =? 95)%N || (code c =? 46)%N || (code c =? 45)%N.
Definition plainb (nm : str) : bool :=
  match nm with [] => false | c :: r => name_start c && forallb name_rest r end.

Lemma plainb_plain nm : plainb nm = true -> plain_name nm.
Proof.
  destruct nm as [|c r]; [discriminate|]. cbn [plainb]. rewrite andb_true_iff, forallb_forall. intros [H1 H2].
  exists c, r. split; [reflexivity|]. split.
  - unfold name_start, is_upper, is_lower in H1. unfold letter. lia.
  - apply Forall_forall. intros d Hd. specialize (H2 d Hd).
    unfold name_rest, is_upper, is_lower, is_digit in H2. unfold letter, digit. lia.
Qed.

Lemma plain_app a b : plain_name a -> forallb name_rest b = true -> plain_name (a ++ b).
Proof.
  intros (c & r & -> & H1 & H2) Hb. exists c, (r ++ b). split; [reflexivity|]. split; auto.
  apply Forall_app. split; auto. apply Forall_forall. intros d Hd. rewrite forallb_forall in Hb.
  specialize (Hb d Hd). unfold name_rest, is_upper, is_lower, is_digit in Hb. unfold letter, digit. lia.
Qed.

Lemma plain_xml nm : plain_name nm -> xml_string nm.
Proof.
  intros (c & r & -> & H1 & H2). apply ascii_xml. constructor.
  - unfold letter in H1. lia.
  - eapply Forall_impl; [|exact H2]. intros d H. cbv beta in H. unfold letter, digit in H. lia.
Qed.

(** ** Types *)

Definition boxb (nm : str) : bool := plainb nm && negb (fold_member nm ofx_leaf_elements).
Definition box (nm : str) : Prop := plain_name nm /\ container nm.

Lemma boxb_box nm : boxb nm = true -> box nm.
Proof.
  unfold boxb, box, container. rewrite andb_true_iff, negb_true_iff. intros [H1 H2]. split; auto.
  apply plainb_plain; auto.
Qed.

Definition asciib (s : str) : bool := forallb (fun c => (32 <=? code c) && (code c <=? 126))%N s.

Lemma asciib_ascii s : asciib s = true -> ascii_text s.
Proof. unfold asciib. rewrite forallb_forall. intros H. apply Forall_forall. intros c Hc. specialize (H c Hc). cbv beta in H. lia. Qed.

(** The names in a type are proper, [lb] holds of those of the elements that hold
    text, and those of structs are not simple elements. *)
Fixpoint form_ty (lb : str -> bool) (t : ty) (force : bool) (nm : str) : bool :=
  match t with
  | TLeaf l => plainb nm && lb nm && match l with LEnum t => forallb asciib (en_names t) | _ => true end
  | TStruct x fs => boxb (if force || null x then nm else x) && form_flds lb fs
  | TPtr t | TSlice t => form_ty lb t force nm
  | TCustom x fs => boxb x && form_cust lb fs
  | TAlts a => form_alts lb a
  | TAltList x a => boxb x && form_alts lb a
  | TMsgSets fs => lb (bs "Name") && form_flds lb fs
  end
with form_flds (lb : str -> bool) (fs : flds) : bool :=
  match fs with
  | FNil => true
  | FCons ps nm _ t fs' => forallb boxb ps && form_ty lb t false nm && form_flds lb fs'
  end
with form_cust (lb : str -> bool) (fs : flds) : bool :=
  match fs with
  | FNil => true
  | FCons _ nm _ t fs' => form_ty lb t true nm && form_cust lb fs'
  end
with form_alts (lb : str -> bool) (a : alts) : bool :=
  match a with
  | ANil => true
  | ACons _ wr t a' => form_ty lb t true wr && form_alts lb a'
  end.

(** The message set names in a value. *)
Fixpoint sets_named (t : ty) : interp t -> Prop :=
  match t return interp t -> Prop with
  | TLeaf _ => fun _ => True
  | TStruct _ fs | TCustom _ fs => sets_named_flds fs
  | TPtr t => fun v => match v with None => True | Some v => sets_named t v end
  | TSlice t => Forall (sets_named t)
  | TAlts a | TAltList _ a => Forall (sets_named_alt a)
  | TMsgSets fs => Forall (fun m => set_element_name (fst m) /\ sets_named_flds fs (snd m))
  end
with sets_named_flds (fs : flds) : interp_flds fs -> Prop :=
  match fs return interp_flds fs -> Prop with
  | FNil => fun _ => True
  | FCons _ _ _ t fs' => fun v => sets_named t (fst v) /\ sets_named_flds fs' (snd v)
  end
with sets_named_alt (a : alts) : interp_alts a -> Prop :=
  match a return interp_alts a -> Prop with
  | ANil => fun _ => True
  | ACons _ _ t a' => fun v =>
      match v with inl x => sets_named t x | inr y => sets_named_alt a' y end
  end.

Lemma no_msgsets_named :
  (forall t v, no_msgsets t = true -> sets_named t v) /\
  (forall fs v, no_msgsets_flds fs = true -> sets_named_flds fs v) /\
  (forall a v, no_msgsets_alts a = true -> sets_named_alt a v).
Proof.
  apply schema_ind; cbn [no_msgsets no_msgsets_flds no_msgsets_alts sets_named sets_named_flds sets_named_alt]; auto.
  - intros t IH [v|] H; auto.
  - intros t IH v H. apply Forall_forall. auto.
  - intros a IH v H. apply Forall_forall. auto.
  - intros x a IH v H. apply Forall_forall. auto.
  - intros fs _ v H. discriminate.
  - intros ps nm om t IHt fs IHfs v H. apply andb_true_iff in H as [H1 H2]. auto.
  - intros rd wr t IHt a IHa [v|v] H; apply andb_true_iff in H as [H1 H2]; auto.
Qed.

(** ** Values *)

(** What is known of the values ([Q]) and shown of the text of the elements. *)
Record leaf_rule (lb : str -> bool) (Q : forall l, leafval l -> Prop) (leaf : str -> str -> Prop) : Prop := {
  rule_leaf : forall l v s nm, match l with LEnum t => forallb asciib (en_names t) | _ => true end = true ->
    lb nm = true -> Q l v -> leaf_marshal l v = Some (Some s) -> leaf nm s;
  rule_name : forall n, lb (bs "Name") = true -> set_element_name n -> leaf (bs "Name") n;
  rule_text : forall s, asciib s = true -> Q LString s
}.

Definition docs leaf := Forall (document leaf container).

Lemma leaf_xml l v s : match l with LEnum t => forallb asciib (en_names t) | _ => true end = true ->
  clean_text l v -> leaf_marshal l v = Some (Some s) -> xml_string s.
Proof.
  destruct l; cbn [leaf_marshal clean_text leafval]; intros Ht Hc E;
    try (injection E as <-).
  - apply ascii_xml, fmt_d_ascii.
  - exact Hc.
  - apply ascii_xml, amount_ascii.
  - apply date_xml, Hc.
  - apply ascii_xml, asciib_ascii. destruct v; reflexivity.
  - exact Hc.
  - exact Hc.
  - unfold enum_marshal in E. destruct (negb (enum_valid t v)); [discriminate|].
    unfold enum_index in E. destruct (v =? 0)%N; [discriminate|].
    destruct (nth_error (en_names t) (N.to_nat (v - 1))) eqn:En; [|discriminate]. injection E as <-.
    apply nth_error_In in En. rewrite forallb_forall in Ht. apply ascii_xml, asciib_ascii, Ht, En.
Qed.

Definition cmd_ok leaf (c : cmd) : Prop :=
  match c with Open n => box n | Close => True | Whole n => document leaf container n end.

Lemma build_docs leaf c : Forall (cmd_ok leaf) c -> Forall (docs leaf) (build c).
Proof.
  induction 1 as [|x c Hx H IH]; cbn [build].
  - repeat constructor.
  - destruct x as [n| |n].
    + destruct (build c) as [|f [|g r]]; try constructor.
      * constructor; [|exact (Forall_inv (Forall_inv_tail IH))]. destruct Hx as [H1 H2].
        apply document_elems; auto. exact (Forall_inv IH).
      * exact (Forall_inv_tail (Forall_inv_tail IH)).
    + constructor; [constructor | exact IH].
    + destruct (build c) as [|f r]; constructor.
      * constructor; [exact Hx | exact (Forall_inv IH)].
      * exact (Forall_inv_tail IH).
Qed.

Lemma content_docs leaf c : Forall (cmd_ok leaf) c -> docs leaf (content c).
Proof.
  intros H. apply build_docs in H. unfold content. destruct (build c); [constructor | exact (Forall_inv H)].
Qed.

Lemma concat_opt_docs {A} leaf (f : A -> option (list node)) l k :
  Forall (fun x => forall ns, f x = Some ns -> docs leaf ns) l ->
  concat_opt f l = Some k -> docs leaf k.
Proof.
  revert k. induction l as [|x l IH]; intros k H E; cbn [concat_opt] in E.
  - injection E as <-. constructor.
  - destruct (f x) as [a|] eqn:Ea; [|discriminate]. cbn [bind] in E.
    destruct (concat_opt f l) as [b|] eqn:Eb; [|discriminate]. cbn [bind] in E. injection E as <-.
    apply Forall_app. split; [exact (Forall_inv H a Ea)|]. apply (IH b (Forall_inv_tail H) eq_refl).
Qed.

Lemma closes_ok leaf n : Forall (cmd_ok leaf) (repeat Close n).
Proof. induction n; constructor; auto. exact I. Qed.

Lemma Forall_skipn {A} (P : A -> Prop) n l : Forall P l -> Forall P (skipn n l).
Proof. revert l. induction n; intros l H; [exact H|]. destruct l; [constructor|]. apply IHn. exact (Forall_inv_tail H). Qed.

Lemma trim_v1_stem stem : trim_v1 (stem ++ bs "V1") = stem.
Proof.
  unfold trim_v1. rewrite app_length. cbn [bs list_ascii_of_string length].
  replace (length stem + 2 - 2) with (length stem + 0) by lia.
  rewrite firstn_app_2. cbn [firstn]. apply app_nil_r.
Qed.

Lemma marshal_docs lb Q leaf : leaf_rule lb Q leaf ->
  (forall t force nm om v ns, form_ty lb t force nm = true -> every Q t v -> sets_named t v ->
     marshal t force nm om v = Some ns -> docs leaf ns) /\
  (forall fs,
    (forall st v c, form_flds lb fs = true -> every_field Q fs v -> sets_named_flds fs v ->
       struct_cmds fs st v = Some c -> Forall (cmd_ok leaf) c) /\
    (forall v ns, form_cust lb fs = true -> every_field Q fs v -> sets_named_flds fs v ->
       custom_kids fs v = Some ns -> docs leaf ns)) /\
  (forall a v ns, form_alts lb a = true -> every_alt Q a v -> sets_named_alt a v ->
     marshal_alt a v = Some ns -> docs leaf ns).
Proof.
  intros Hrule. apply schema_ind.
  - intros l force nm om v ns Hf Hc _ E. cbn [marshal form_ty every] in *. apply andb_true_iff in Hf as [Hp Hl].
    apply andb_true_iff in Hp as [Hp Hlb].
    destruct (om && leaf_empty l v); [injection E as <-; constructor|].
    destruct (leaf_marshal l v) as [[s|]|] eqn:El; [| |discriminate]; cbn [bind] in E; injection E as <-;
      [|constructor].
    constructor; [|constructor]. apply document_text; [apply plainb_plain, Hp|].
    eapply (rule_leaf _ _ _ Hrule); eauto.
  - intros x fs [IH _] force nm om v ns Hf Hc Hs E. cbn [marshal form_ty every sets_named] in *.
    apply andb_true_iff in Hf as [Hb Hf]. destruct (struct_cmds fs [] v) as [c|] eqn:Ec; [|discriminate].
    cbn [bind] in E. injection E as <-. constructor; [|constructor]. apply boxb_box in Hb as [Hb1 Hb2].
    apply document_elems; auto. apply content_docs. eapply IH; eauto.
  - intros t IH force nm om v ns Hf Hc Hs E. destruct v as [v|]; cbn [marshal form_ty every sets_named] in *.
    + eapply IH; eauto.
    + injection E as <-. constructor.
  - intros t IH force nm om v ns Hf Hc Hs E. cbn [marshal form_ty every sets_named] in *.
    destruct (om && null v); [injection E as <-; constructor|].
    eapply concat_opt_docs; [|exact E]. rewrite Forall_forall in *. intros y Hy ns' E'. eapply IH; eauto.
  - intros x fs [_ IH] force nm om v ns Hf Hc Hs E. cbn [marshal form_ty every sets_named] in *.
    apply andb_true_iff in Hf as [Hb Hf]. destruct (custom_kids fs v) as [c|] eqn:Ec; [|discriminate].
    cbn [bind] in E. injection E as <-. constructor; [|constructor]. apply boxb_box in Hb as [Hb1 Hb2].
    apply document_elems; auto. eapply IH; eauto.
  - intros a IH force nm om v ns Hf Hc Hs E. cbn [marshal form_ty every sets_named] in *.
    eapply concat_opt_docs; [|exact E]. rewrite Forall_forall in *. intros y Hy ns' E'. eapply IH; eauto.
  - intros x a IH force nm om v ns Hf Hc Hs E. cbn [marshal form_ty every sets_named] in *.
    apply andb_true_iff in Hf as [Hb Hf].
    destruct (om && null v); [injection E as <-; constructor|].
    destruct (concat_opt (marshal_alt a) v) as [k|] eqn:Ek; [|discriminate]. cbn [bind] in E. injection E as <-.
    constructor; [|constructor]. apply boxb_box in Hb as [Hb1 Hb2]. apply document_elems; auto.
    eapply concat_opt_docs; [|exact Ek]. rewrite Forall_forall in *. intros y Hy ns' E'. eapply IH; eauto.
  - intros fs [IH _] force nm om v ns Hf Hc Hs E. cbn [marshal form_ty every sets_named] in *.
    apply andb_true_iff in Hf as [Hlb Hf].
    destruct (om && null v); [injection E as <-; constructor|].
    match type of E with context [concat_opt ?f v] => set (g := f) in E end.
    destruct (concat_opt g v) as [k|] eqn:Ek; [|discriminate]. cbn [bind] in E. injection E as <-.
    constructor; [|constructor].
    apply document_elems; [apply plainb_plain; reflexivity | vm_compute; reflexivity |].
    eapply concat_opt_docs; [|exact Ek]. rewrite Forall_forall in *. intros [n r] Hy ns' E'.
    specialize (Hc _ Hy). specialize (Hs _ Hy). cbn [fst snd] in *. destruct Hs as [Hname Hs].
    pose proof Hname as (stem & -> & Hp & Hs1 & Hs2).
    unfold g in E'. rewrite trim_v1_stem in E'. destruct (not_v1 (stem ++ bs "V1") || null stem); [discriminate|].
    destruct (struct_cmds fs [] r) as [c|] eqn:Ec; [|discriminate]. cbn [bind] in E'. injection E' as <-.
    apply container_iff in Hs1. apply container_iff in Hs2.
    assert (Hp2 : plain_name (stem ++ bs "V1")) by (apply plain_app; [auto|reflexivity]).
    constructor; [|constructor]. apply document_elems; auto.
    constructor; [|constructor]. apply document_elems; auto. constructor.
    + apply document_text; [apply plainb_plain; reflexivity | apply (rule_name _ _ _ Hrule); assumption].
    + apply content_docs. eapply IH; eauto.
  - split.
    + intros st v c _ _ _ E. cbn [struct_cmds] in E. injection E as <-. apply closes_ok.
    + intros v ns _ _ _ E. cbn [custom_kids] in E. injection E as <-. constructor.
  - intros ps nm om t IHt fs [IHs IHc]. split.
    + intros st v c Hf Hc Hs E. cbn [struct_cmds form_flds every_field sets_named_flds] in *.
      rewrite !andb_true_iff in Hf. destruct Hf as [[Hps Hft] Hff].
      destruct Hc as [Hc1 Hc2]. destruct Hs as [Hs1 Hs2].
      destruct (marshal t false nm om (fst v)) as [nodes|] eqn:Em; [|discriminate]. cbn [bind] in E.
      match type of E with context [struct_cmds fs ?st' ?w] => destruct (struct_cmds fs st' w) as [rest|] eqn:Er; [|discriminate] end.
      cbn [bind] in E. injection E as <-.
      repeat (apply Forall_app; split).
      * apply closes_ok.
      * destruct (is_nil t (fst v)); [constructor|]. rewrite Forall_map. apply Forall_skipn.
        apply Forall_forall. intros p Hp. rewrite forallb_forall in Hps. cbn [cmd_ok]. apply boxb_box, Hps, Hp.
      * rewrite Forall_map. cbn [cmd_ok]. eapply IHt; eauto.
      * eapply IHs; eauto.
    + intros v ns Hf Hc Hs E. cbn [custom_kids form_cust every_field sets_named_flds] in *.
      apply andb_true_iff in Hf as [Hft Hff]. destruct Hc as [Hc1 Hc2]. destruct Hs as [Hs1 Hs2].
      destruct (marshal t true nm false (fst v)) as [nodes|] eqn:Em; [|discriminate]. cbn [bind] in E.
      destruct (custom_kids fs (snd v)) as [rest|] eqn:Er; [|discriminate]. cbn [bind] in E. injection E as <-.
      apply Forall_app. split; [eapply IHt; eauto | eapply IHc; eauto].
  - intros [].
  - intros rd wr t IHt a IHa v ns Hf Hc Hs E. cbn [marshal_alt form_alts every_alt sets_named_alt] in *.
    apply andb_true_iff in Hf as [Hf1 Hf2]. destruct v; [eapply IHt; eauto | eapply IHa; eauto].
Qed.

(** ** Messages *)

Lemma encode_docs lb Q leaf t v ns : leaf_rule lb Q leaf -> form_ty lb t false [] = true ->
  every Q t v -> sets_named t v -> encode_as t v = Some ns -> docs leaf ns.
Proof. unfold encode_as. intros Hr. intros. eapply (proj1 (marshal_docs lb Q leaf Hr)); eauto. Qed.

Lemma profile_named r : Forall (fun s => set_element_name (MessageSet_Name s)) (ProfileResponse_MessageSetList r) ->
  sets_named ProfileResponse_ty (ProfileResponse_to r).
Proof.
  intros H. assert (H' : sets_named (TMsgSets MessageSet_fields) (map MessageSet_to (ProfileResponse_MessageSetList r))).
  { cbn [sets_named]. rewrite Forall_map. eapply Forall_impl; [|exact H]. intros s Hs. cbv beta in Hs.
    split; [exact Hs|]. apply no_msgsets_named. reflexivity. }
  unfold ProfileResponse_ty, ProfileResponse_fields, ProfileResponse_to.
  cbn [sets_named sets_named_flds fst snd]. 
  repeat match goal with |- _ /\ _ => split end; auto.
  - apply (proj1 no_msgsets_named). reflexivity.
  - apply Forall_forall. intros x _. apply (proj1 no_msgsets_named). reflexivity.
Qed.

(** The types of the messages that can be sent, and of all messages. *)
Definition form_message (lb : str -> bool) (m : Message) : bool :=
  match m with
  | MsgAcctInfoRequest _ => form_ty lb AcctInfoRequest_ty false []
  | MsgStatementRequest _ => form_ty lb StatementRequest_ty false []
  | MsgCCStatementRequest _ => form_ty lb CCStatementRequest_ty false []
  | MsgInvStatementRequest _ => form_ty lb InvStatementRequest_ty false []
  | MsgSecListRequest _ => form_ty lb SecListRequest_ty false []
  | MsgProfileRequest _ => form_ty lb ProfileRequest_ty false []
  | MsgAcctInfoResponse _ => form_ty lb AcctInfoResponse_ty false []
  | MsgStatementResponse _ => form_ty lb StatementResponse_ty false []
  | MsgCCStatementResponse _ => form_ty lb CCStatementResponse_ty false []
  | MsgInvStatementResponse _ => form_ty lb InvStatementResponse_ty false []
  | MsgSecListResponse _ => form_ty lb SecListResponse_ty false []
  | MsgSecurityList _ => form_ty lb SecurityList_ty false []
  | MsgProfileResponse _ => form_ty lb ProfileResponse_ty false []
  end.

Lemma message_docs lb Q leaf m ns : leaf_rule lb Q leaf -> form_message lb m = true ->
  message_every Q m -> message_named m -> encode_message m = Some ns -> docs leaf ns.
Proof.
  intros Hr Hf Hc Hn E. destruct m; cbn [encode_message message_every form_message] in *;
    (eapply encode_docs; [exact Hr | exact Hf | exact Hc | | exact E];
     first [apply (proj1 no_msgsets_named); vm_compute; reflexivity | apply profile_named; exact Hn]).
Qed.

Definition message_good lb Q m := form_message lb m = true /\ message_every Q m /\ message_named m.

Lemma sent_good lb Q leaf m : leaf_rule lb Q leaf -> message_good lb Q m -> message_good lb Q (sent m).
Proof.
  intros Hr. destruct m; auto. unfold message_good. cbn [message_every form_message sent]. intros (Hf & H & _).
  split; [exact Hf|]. split; [|exact I].
  unfold ProfileRequest_ty, ProfileRequest_to, ProfileRequest_fields in *. cbn [every every_field fst snd] in *.
  repeat match goal with H : _ /\ _ |- _ => destruct H end.
  repeat match goal with |- _ /\ _ => split end; auto.
  apply (rule_text _ _ _ Hr). reflexivity.
Qed.

Lemma sets_docs lb Q leaf tbl ns : leaf_rule lb Q leaf ->
  (forall set ms m, In (set, ms) tbl -> In m ms -> message_good lb Q m) ->
  Forall (fun p => box (fst p)) tbl ->
  sets_written encodes tbl ns -> docs leaf ns.
Proof.
  intros Hr Hc Hb H. induction H as [|set tbl ns H IH|set ms kids tbl ns Hne Hk H IH].
  - constructor.
  - apply IH; [|exact (Forall_inv_tail Hb)]. intros s ms m Hin. apply (Hc s ms m). right. exact Hin.
  - constructor.
    + pose proof (Forall_inv Hb) as Hbox. cbn [fst] in Hbox. destruct Hbox as [Hb1 Hb2].
      apply document_elems; auto.
      assert (Hms : forall m, In m ms -> message_good lb Q m) by (intros m; apply (Hc set ms m); left; reflexivity).
      clear - Hr Hms Hk. induction Hk as [|m n ms kids H1 H2 IH]; constructor.
      * destruct (sent_good lb Q leaf m Hr (Hms m (or_introl eq_refl))) as (G1 & G2 & G3). unfold encodes in H1.
        exact (Forall_inv (message_docs lb Q leaf _ _ Hr G1 G2 G3 H1)).
      * apply IH. intros m' Hm'. apply Hms. right. exact Hm'.
    + apply IH; [|exact (Forall_inv_tail Hb)]. intros s ms' m Hin. apply (Hc s ms' m). right. exact Hin.
Qed.

Lemma request_docs lb Q leaf q t q' : leaf_rule lb Q leaf ->
  form_ty lb SignonRequest_ty false [] = true ->
  every Q SignonRequest_ty (SignonRequest_to (rq_signon q)) ->
  (forall set ms m, In (set, ms) (request_sets (rq_slots q)) -> In m ms -> message_good lb Q m) ->
  request_tree q = Some (t, q') ->
  exists k, t = Elem (bs "OFX") k /\ k <> [] /\ docs leaf k.
Proof.
  intros Hr Hf Hs Hm E. apply request_tree_spec in E as (-> & sonrq & sets & -> & Es & HW).
  eexists. split; [reflexivity|]. split; [discriminate|]. constructor.
  - apply document_elems; [apply plainb_plain; reflexivity | vm_compute; reflexivity |].
    eapply encode_docs; [exact Hr | exact Hf | | | exact Es].
    + unfold SignonRequest_ty, SignonRequest_to, SignonRequest_fields, sent_signon in *. cbn [every every_field fst snd] in *.
      repeat match goal with H : _ /\ _ |- _ => destruct H end.
      repeat match goal with |- _ /\ _ => split end; auto.
      cbn. destruct (SignonRequest_Language (rq_signon q)); auto.
      apply (rule_text _ _ _ Hr). reflexivity.
    + apply (proj1 no_msgsets_named). vm_compute. reflexivity.
  - eapply sets_docs; [exact Hr | exact Hm| |exact HW].
    unfold request_sets. repeat constructor; cbn [fst]; apply boxb_box; vm_compute; reflexivity.
Qed.

Lemma response_docs lb Q leaf r t : leaf_rule lb Q leaf ->
  form_ty lb SignonResponse_ty false [] = true ->
  every Q SignonResponse_ty (SignonResponse_to (rs_signon r)) ->
  (forall set ms m, In (set, ms) (response_sets (rs_slots r)) -> In m ms -> message_good lb Q m) ->
  response_tree r = Some t ->
  exists k, t = Elem (bs "OFX") k /\ k <> [] /\ docs leaf k.
Proof.
  intros Hr Hf Hs Hm E. apply response_tree_spec in E as (sonrs & sets & -> & Es & HW).
  eexists. split; [reflexivity|]. split; [discriminate|]. constructor.
  - apply document_elems; [apply plainb_plain; reflexivity | vm_compute; reflexivity |].
    eapply encode_docs; [exact Hr | exact Hf | exact Hs | |exact Es].
    apply (proj1 no_msgsets_named). vm_compute. reflexivity.
  - eapply sets_docs; [exact Hr | exact Hm| |exact HW].
    unfold response_sets. repeat constructor; cbn [fst]; apply boxb_box; vm_compute; reflexivity.
Qed.

(** ** The rules that are used *)

Definition any_name (nm : str) : bool := true.
Definition simple_name (nm : str) : bool := fold_member nm ofx_leaf_elements || member nm ofx2_options.
Definition anything (l : leafty) (v : leafval l) : Prop := True.

Lemma rule_clean : leaf_rule any_name clean_text (fun _ s => xml_string s).
Proof.
  constructor.
  - intros l v s nm Ht _ Hc E. eapply leaf_xml; eauto.
  - intros n _ (stem & -> & Hp & _). apply plain_xml. apply plain_app; [exact Hp | reflexivity].
  - intros s H. apply ascii_xml, asciib_ascii, H.
Qed.

Lemma rule_any : leaf_rule any_name anything (fun _ _ => True).
Proof. constructor; intros; exact I. Qed.

Lemma simple_name_iff nm : simple_name nm = true <-> simple_element nm \/ In nm ofx2_options.
Proof. unfold simple_name. rewrite orb_true_iff, member_In, simple_element_iff. reflexivity. Qed.

Lemma rule_simple : leaf_rule simple_name anything (fun nm _ => simple_element nm \/ In nm ofx2_options).
Proof.
  constructor.
  - intros l v s nm _ H _ _. apply simple_name_iff. exact H.
  - intros n H. apply simple_name_iff in H. intros _. exact H.
  - intros. exact I.
Qed.

Lemma every_anything :
  (forall t v, every anything t v) /\
  (forall fs v, every_field anything fs v) /\
  (forall a v, every_alt anything a v).
Proof.
  apply schema_ind; cbn [every every_field every_alt]; auto.
  - intros. exact I.
  - intros t IH [v|]; auto.
  - intros t IH v. apply Forall_forall. auto.
  - intros a IH v. apply Forall_forall. auto.
  - intros x a IH v. apply Forall_forall. auto.
  - intros fs IH v. apply Forall_forall. auto.
  - intros rd wr t IHt a IHa [v|v]; auto.
Qed.

Lemma message_anything m : message_every anything m.
Proof. destruct m; apply every_anything. Qed.

Lemma form_any m : form_message any_name m = true.
Proof. destruct m; vm_compute; reflexivity. Qed.

Lemma response_doc r t : response_clean r -> response_tree r = Some t ->
  exists k, t = Elem (bs "OFX") k /\ k <> [] /\ docs (fun _ s => xml_string s) k.
Proof.
  intros [Hs Hm]. apply (response_docs _ _ _ r t rule_clean); [vm_compute; reflexivity | exact Hs|].
  intros set ms m H1 H2. destruct (Hm set ms m H1 H2) as [G1 G2]. split; [apply form_any|]. split; auto.
Qed.

Lemma response_doc_any r t : response_named r -> response_tree r = Some t ->
  exists k, t = Elem (bs "OFX") k /\ k <> [] /\ docs (fun _ _ => True) k.
Proof.
  intros Hm. apply (response_docs _ _ _ r t rule_any); [vm_compute; reflexivity | apply every_anything |].
  intros set ms m H1 H2. split; [apply form_any|]. split; [apply message_anything | eapply Hm; eauto].
Qed.

(** ** Requests *)

Lemma request_message set ms m q : slots_acceptable (rq_version q) (request_sets (rq_slots q)) ->
  In (set, ms) (request_sets (rq_slots q)) -> In m ms ->
  message_named m /\ form_message simple_name m = true /\ form_message any_name m = true.
Proof.
  intros Ha Hin Hm. destruct (Ha set ms m Hin Hm) as [Hb _].
  assert (Hset : In set (map fst (request_sets (rq_slots q)))) by exact (in_map fst _ _ Hin).
  rewrite <- Hb in Hset. unfold request_sets in Hset. cbn [map fst] in Hset.
  split; [|split; [|apply form_any]].
  - destruct m; try exact I. exfalso. cbn [belongs_in In] in Hset.
    repeat (destruct Hset as [E|Hset]; [discriminate E|]). exact Hset.
  - destruct m; try (vm_compute; reflexivity);
    (exfalso; cbn [belongs_in In] in Hset;
     repeat (destruct Hset as [E|Hset]; [discriminate E|]); exact Hset).
Qed.

Lemma rule_both lb lb' Q Q' leaf leaf' : leaf_rule lb Q leaf -> leaf_rule lb' Q' leaf' ->
  leaf_rule (fun nm => lb nm && lb' nm) (fun l v => Q l v /\ Q' l v) (fun nm s => leaf nm s /\ leaf' nm s).
Proof.
  intros [A1 A2 A3] [B1 B2 B3]. constructor.
  - intros l v s nm Ht H [] E. apply andb_true_iff in H as []. split; eauto.
  - intros n H. apply andb_true_iff in H as []. split; eauto.
  - intros s H. split; auto.
Qed.

Lemma request_doc_any q t q' : request_tree q = Some (t, q') ->
  exists k, t = Elem (bs "OFX") k /\ k <> [] /\ docs (fun nm _ => simple_element nm \/ In nm ofx2_options) k.
Proof.
  intros E. pose proof (proj1 (request_tree_iff q)) as [_ Ha]; [congruence|].
  apply (request_docs _ _ _ q t q' rule_simple); [vm_compute; reflexivity | apply every_anything | | exact E].
  intros set ms m H1 H2. destruct (request_message set ms m q Ha H1 H2) as (G1 & G2 & _).
  split; auto. split; auto. apply message_anything.
Qed.

Lemma request_doc q t q' : request_clean q -> request_tree q = Some (t, q') ->
  exists k, t = Elem (bs "OFX") k /\ k <> [] /\ docs (fun _ s => xml_string s) k.
Proof.
  intros [Hs Hm] E. pose proof (proj1 (request_tree_iff q)) as [_ Ha]; [congruence|].
  apply (request_docs _ _ _ q t q' rule_clean); [vm_compute; reflexivity | exact Hs | | exact E].
  intros set ms m H1 H2. destruct (request_message set ms m q Ha H1 H2) as (G1 & _ & G2).
  split; auto. split; auto. exact (Hm set ms m H1 H2).
Qed.
