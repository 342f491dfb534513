(** What the header readers make of the headers the library writes. *)
From Verif Require Import GoStr SpecStr GoStrFacts EnumTables Enums Codec Xml SpecXml XmlFacts SpellFacts LexFacts
  Headers SpecHeader HeaderFacts.
From Coq Require Import Lia ZifyBool ZifyNat ZifyN.

Definition line_end (crlf : bool) : str := if crlf then [cr; nl] else [nl].

Lemma line_end_ws crlf : xml_ws (line_end crlf).
Proof.
  assert (H1 : code nl = 10%N) by reflexivity. assert (H2 : code cr = 13%N) by reflexivity.
  destruct crlf; cbn [line_end]; repeat (apply Forall_cons; [lia|]); apply Forall_nil.
Qed.

Lemma lex_tag strict s ts rest : read_tag strict s = Some (ts, rest) ->
  lex strict ("<"%char :: s) = ts ++ lex strict rest.
Proof.
  intros H. rewrite <- (lex_fuel_enough (S (length s)) strict ("<"%char :: s)) by (cbn [length]; lia).
  cbn [lex_fuel]. change (Ascii.eqb "<" "<") with true. cbv iota. rewrite H.
  rewrite lex_fuel_enough; [reflexivity|]. exact (read_tag_length _ _ _ _ H).
Qed.

Lemma lex_blank strict w r : xml_ws w -> w <> [] ->
  exists w', xml_ws w' /\ lex strict (w ++ "<"%char :: r) = TChar w' :: lex strict ("<"%char :: r).
Proof.
  intros Hw Hne.
  destruct (lex_text (length (w ++ "<"%char :: r)) strict [] [] w r written_nil xml_string_nil Hw Hne) as (w' & Hw' & _ & E).
  exists w'. split; auto. cbn [app] in E. rewrite <- (lex_fuel_enough (S (length (w ++ "<"%char :: r)))) by lia.
  rewrite E. f_equal. apply lex_fuel_enough. rewrite app_length. lia.
Qed.

Lemma version_cases v : (OfxVersion102 <= v <= OfxVersion160)%N ->
  v = OfxVersion102 \/ v = OfxVersion103 \/ v = OfxVersion151 \/ v = OfxVersion160.
Proof. unfold OfxVersion102, OfxVersion103, OfxVersion151, OfxVersion160. lia. Qed.

Lemma xml_version_cases v : (OfxVersion200 <= v <= OfxVersion220)%N ->
  v = OfxVersion200 \/ v = OfxVersion201 \/ v = OfxVersion202 \/ v = OfxVersion203 \/
  v = OfxVersion210 \/ v = OfxVersion211 \/ v = OfxVersion220.
Proof.
  unfold OfxVersion200, OfxVersion201, OfxVersion202, OfxVersion203, OfxVersion210, OfxVersion211, OfxVersion220. lia.
Qed.

(** ** SGML *)

Lemma written_sgml v crlf : (OfxVersion102 <= v <= OfxVersion160)%N ->
  exists h, write_header v crlf = Some h /\ sgml_header_for v h /\ length h < window /\
    exists r, h = bs "OFXHEADER:" ++ r.
Proof.
  intros H. apply version_cases in H.
  assert (E : exists h, write_header v crlf = Some h /\ read_sgml_headers (h ++ bs "<") = Some (v, bs "<") /\
                        exists r, h = bs "OFXHEADER:" ++ r).
  { decompose [or] H; subst v; destruct crlf; (eexists; split; [vm_compute; reflexivity|]; split; [vm_compute; reflexivity|]; eexists; reflexivity). }
  destruct E as (h & E1 & E2 & E3). exists h. split; auto.
  apply read_sgml_iff in E2 as (h' & E4 & Hh & _ & Hl). apply app_inj_tail in E4 as [-> _]. auto.
Qed.

Lemma guess_sgml r : guess_xml (bs "OFXHEADER:" ++ r) = false.
Proof.
  unfold guess_xml.
  assert (E : exists r', firstn window (bs "OFXHEADER:" ++ r) = bs "OFXHEADER:" ++ r').
  { exists (firstn (window - 10) r). rewrite firstn_app. reflexivity. }
  destruct E as [r' ->].
  change (index_of (bs "OFXHEADER:") (bs "OFXHEADER:" ++ r')) with (Some 0). cbv beta iota.
  change (index_of (bs "OFXHEADER=") (bs "OFXHEADER:" ++ r')) with
    (option_map S (index_of (bs "OFXHEADER=") (bs "FXHEADER:" ++ r'))).
  destruct (index_of (bs "OFXHEADER=") (bs "FXHEADER:" ++ r')); reflexivity.
Qed.

(** ** XML *)

Lemma write_xml v crlf : (OfxVersion200 <= v <= OfxVersion220)%N ->
  write_header v crlf = Some (xml_declaration ++ line_end crlf ++ ofx_instruction v ++ line_end crlf).
Proof.
  intros H. unfold write_header. destruct (N.leb_spec v OfxVersion160) as [H1|H1].
  - exfalso. unfold OfxVersion200, OfxVersion160 in *. lia.
  - rewrite andb_false_r. destruct (N.leb_spec OfxVersion200 v); [|lia]. destruct (N.leb_spec v OfxVersion220); [|lia].
    reflexivity.
Qed.

Fixpoint nowhere (p a x : str) : bool :=
  match a with
  | [] => true
  | _ :: a' => negb (has_prefix p (a ++ x)) && nowhere p a' x
  end.

Lemma index_of_nowhere p a x : nowhere p a x = true ->
  index_of p (a ++ x) = option_map (Nat.add (length a)) (index_of p x).
Proof.
  induction a as [|c a IH]; cbn [nowhere].
  - intros _. cbn [app length]. destruct (index_of p x); reflexivity.
  - intros H. apply andb_true_iff in H as [H1 H2]. apply negb_true_iff in H1.
    cbn [app index_of] in *. rewrite H1, (IH H2). destruct (index_of p x); reflexivity.
Qed.

Definition before_key (crlf : bool) : str := xml_declaration ++ line_end crlf ++ bs "<?OFX ".

Lemma guess_written_xml crlf r : guess_xml (before_key crlf ++ bs "OFXHEADER=" ++ r) = true.
Proof.
  unfold guess_xml.
  assert (E : exists r', firstn window (before_key crlf ++ bs "OFXHEADER=" ++ r) = before_key crlf ++ bs "OFXHEADER=" ++ r').
  { exists (firstn (window - length (before_key crlf) - 10) r). destruct crlf; rewrite !firstn_app; reflexivity. }
  destruct E as [r' ->].
  assert (E1 : index_of (bs "OFXHEADER=") (before_key crlf ++ bs "OFXHEADER=" ++ r') = Some (length (before_key crlf)))
    by (destruct crlf; vm_compute; reflexivity).
  assert (E2 : index_of (bs "OFXHEADER:") (before_key crlf ++ bs "OFXHEADER=" ++ r') =
    option_map (Nat.add (length (before_key crlf))) (index_of (bs "OFXHEADER:") (bs "OFXHEADER=" ++ r'))).
  { apply index_of_nowhere. destruct crlf; vm_compute; reflexivity. }
  rewrite E1, E2. destruct (index_of (bs "OFXHEADER:") (bs "OFXHEADER=" ++ r')); [|reflexivity].
  cbn [option_map]. apply Nat.leb_le. lia.
Qed.

Definition ofx_inst_text (v : N) : str :=
  bs "OFXHEADER=" ++ quoted (bs "200") ++ bs " VERSION=" ++ quoted (version_text v) ++
  bs " SECURITY=" ++ quoted (bs "NONE") ++ bs " OLDFILEUID=" ++ quoted (bs "NONE") ++
  bs " NEWFILEUID=" ++ quoted (bs "NONE").

Lemma lex_written_xml (v : N) (crlf : bool) (rest : str) : (OfxVersion200 <= v <= OfxVersion220)%N ->
  exists decl w, xml_ws w /\ lex true (xml_declaration ++ line_end crlf ++ ofx_instruction v ++ rest) =
    TProc (bs "xml") decl :: TChar w :: TProc (bs "OFX") (ofx_inst_text v) :: lex true rest.
Proof.
  intros H. apply xml_version_cases in H.
  assert (E1 : exists decl, forall x, lex true (xml_declaration ++ x) = TProc (bs "xml") decl :: lex true x).
  { eexists. intros x. unfold xml_declaration. rewrite <- !app_assoc. cbn [bs app String.list_ascii_of_string].
    change (quoted (bs "1.0")) with ([chr 34] ++ bs "1.0" ++ [chr 34]).
    etransitivity; [apply lex_tag; vm_compute; reflexivity|]. reflexivity. }
  assert (E2 : forall x, lex true (ofx_instruction v ++ x) = TProc (bs "OFX") (ofx_inst_text v) :: lex true x).
  { intros x. decompose [or] H; subst v; (etransitivity; [apply lex_tag; vm_compute; reflexivity|]; reflexivity). }
  destruct E1 as [decl E1].
  assert (Hlt : exists r, ofx_instruction v ++ rest = "<"%char :: r) by (eexists; reflexivity).
  destruct Hlt as [r Hlt].
  assert (Hne : line_end crlf <> []) by (destruct crlf; discriminate).
  destruct (lex_blank true (line_end crlf) r (line_end_ws crlf) Hne) as (w & Hw & Ew).
  exists decl, w. split; auto. rewrite E1. f_equal. rewrite Hlt, Ew, <- Hlt. f_equal. apply E2.
Qed.

Lemma ofx_inst_header v : (OfxVersion200 <= v <= OfxVersion220)%N -> xml_header_for v (ofx_inst_text v).
Proof.
  intros H. apply xml_version_cases in H. apply xml_header_iff. decompose [or] H; subst v; vm_compute; reflexivity.
Qed.

Lemma Some_inj {A} (x y : A) : Some x = Some y -> x = y.
Proof. congruence. Qed.

Theorem written_xml v crlf h body : (OfxVersion200 <= v <= OfxVersion220)%N -> write_header v crlf = Some h ->
  guess_xml (h ++ body) = true /\ read_xml_headers (lex true (h ++ body)) = Some (v, lex true (line_end crlf ++ body)).
Proof.
  intros H Hh. rewrite (write_xml v crlf H) in Hh. apply Some_inj in Hh. subst h. split.
  - replace ((xml_declaration ++ line_end crlf ++ ofx_instruction v ++ line_end crlf) ++ body)
      with (before_key crlf ++ bs "OFXHEADER=" ++ (quoted (bs "200") ++ bs " VERSION=" ++ quoted (version_text v) ++
  bs " SECURITY=" ++ quoted (bs "NONE") ++ bs " OLDFILEUID=" ++ quoted (bs "NONE") ++
  bs " NEWFILEUID=" ++ quoted (bs "NONE") ++ bs "?>" ++ line_end crlf ++ body)).
    + apply guess_written_xml.
    + unfold before_key, ofx_instruction. rewrite <- !app_assoc. reflexivity.
  - rewrite <- !app_assoc. destruct (lex_written_xml v crlf (line_end crlf ++ body) H) as (decl & w & Hw & E).
    rewrite E. apply read_xml_iff. exists [], decl, [TChar w], (ofx_inst_text v).
    split; [reflexivity|]. split; [constructor|]. split; [|apply ofx_inst_header; auto].
    constructor; [|constructor]. exists w. split; auto. apply xml_ws_run. auto.
Qed.

Theorem written_sgml_read v crlf h body : (OfxVersion102 <= v <= OfxVersion160)%N -> write_header v crlf = Some h ->
  (exists r, body = "<"%char :: r) ->
  guess_xml (h ++ body) = false /\ read_sgml_headers (h ++ body) = Some (v, body).
Proof.
  intros H Hh Hb. destruct (written_sgml v crlf H) as (h' & E & Hf & Hl & r & Er). rewrite E in Hh. injection Hh as <-.
  split.
  - rewrite Er, <- app_assoc. apply guess_sgml.
  - apply read_sgml_iff. exists h'. auto.
Qed.

(** ** Telling SGML from XML *)

Lemma app_skipn (a b : str) : skipn (length a) (a ++ b) = b.
Proof. apply skipn_app_exact. Qed.

Theorem guess_sgml_iff s : guess_xml s = false <-> looks_like_sgml s.
Proof.
  unfold guess_xml, looks_like_sgml. change 1024 with window. set (b := firstn window s). clearbody b. clear s.
  split.
  - destruct (index_of (bs "OFXHEADER:") b) as [i|] eqn:Ei; [|discriminate].
    pose proof (index_of_some _ _ _ Ei) as (r & Er & Hi). intros H.
    exists (firstn i b), r. split; [exact Er|]. intros a' r' Ea.
    rewrite firstn_length_le by exact Hi.
    destruct (index_of (bs "OFXHEADER=") b) as [j|] eqn:Ej.
    + apply Nat.leb_gt in H. destruct (Nat.lt_ge_cases (length a') j) as [Hj|Hj].
      * exfalso. apply (index_of_first _ _ _ Ej (length a') r' Hj). rewrite Ea. apply app_skipn.
      * lia.
    + exfalso. exact (index_of_none _ _ Ej a' r' Ea).
  - intros (a & r & Ea & Hno).
    destruct (index_of (bs "OFXHEADER:") b) as [i|] eqn:Ei; [|exfalso; exact (index_of_none _ _ Ei a r Ea)].
    assert (Hi : i <= length a).
    { destruct (Nat.le_gt_cases i (length a)) as [H|H]; [exact H|].
      exfalso. apply (index_of_first _ _ _ Ei (length a) r H). rewrite Ea. apply app_skipn. }
    destruct (index_of (bs "OFXHEADER=") b) as [j|] eqn:Ej; [|reflexivity].
    pose proof (index_of_some _ _ _ Ej) as (r' & Er & Hj). specialize (Hno _ _ Er).
    rewrite firstn_length_le in Hno by exact Hj. apply Nat.leb_gt. lia.
Qed.

Lemma header_text_start v h : sgml_header_for v h -> exists r, h = bs "OFXHEADER:" ++ r.
Proof.
  intros (version & security & encoding & charset & old & new & H & _).
  inversion H as [|key class keys w value w' values rest Hw Hv Hc Hw' Hr E1 E2 E3]. subst.
  exists (w ++ bs "100" ++ w' ++ rest). reflexivity.
Qed.
