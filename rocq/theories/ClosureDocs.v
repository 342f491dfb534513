(** Responses that have been read: what their fields are like, and that they can
    be written and read again. *)
From Coq Require Import QArith Lia Bool ZifyBool ZifyNat ZifyN.
From Coq Require Import List.
From Verif Require Import GoStr SpecStr GoStrFacts GoTime Types Enums EnumTables Records Common
  Messages SpecNum SpecDate TypesFacts Codec CodecFacts CodecSim SpecCodec Schema SchemaInv Document SpecDocument
  DocumentFacts SetsFacts
  FilingFacts SpecXml Utf8 Xml XmlFacts LexFacts SpellFacts Leaves SpecWire FormFacts Headers SpecHeader HeaderFacts WrittenHeaderFacts
  Wire WireFacts ClosureCodec SpecDecode ClosureFacts.
Close Scope Q_scope.

Lemma every_both_all (P Q R : forall l, leafval l -> Prop) : (forall l v, P l v -> Q l v -> R l v) ->
  (forall t v, every P t v -> every Q t v -> every R t v) /\
  (forall fs v, every_field P fs v -> every_field Q fs v -> every_field R fs v) /\
  (forall a v, every_alt P a v -> every_alt Q a v -> every_alt R a v).
Proof.
  intros H.
  assert (HF : forall A (p q r : A -> Prop), (forall x, p x -> q x -> r x) -> forall l, Forall p l -> Forall q l -> Forall r l).
  { intros A p q r Hx l Hp. induction Hp; intros Hq; inversion Hq; subst; constructor; auto. }
  apply schema_ind.
  - intros l v H1 H2; exact (H l v H1 H2).
  - intros x fs IH v H1 H2; exact (IH v H1 H2).
  - intros t IH [v|] H1 H2; [exact (IH v H1 H2) | exact I].
  - intros t IH v H1 H2. cbn in *. exact (HF _ _ _ _ IH v H1 H2).
  - intros x fs IH v H1 H2; exact (IH v H1 H2).
  - intros a IH v H1 H2. cbn in *. exact (HF _ _ _ _ IH v H1 H2).
  - intros x a IH v H1 H2. cbn in *. exact (HF _ _ _ _ IH v H1 H2).
  - intros fs IH v H1 H2. cbn in *. exact (HF _ _ _ _ (fun m => IH (snd m)) v H1 H2).
  - intros v H1 H2; exact I.
  - intros ps nm om t IHt fs IHf v [H1 H2] [H3 H4]. split; auto.
  - intros v H1 H2; exact I.
  - intros rd wr t IHt a IHa [v|v] H1 H2; cbn in *; auto.
Qed.

Lemma every_both (P Q R : forall l, leafval l -> Prop) : (forall l v, P l v -> Q l v -> R l v) ->
  forall t v, every P t v -> every Q t v -> every R t v.
Proof. intros H. exact (proj1 (every_both_all P Q R H)). Qed.

Lemma upper_xml n : upper_letters n -> xml_string n.
Proof.
  intros H. apply ascii_xml. unfold ascii_text. revert H. apply Forall_impl. intros c Hc. lia.
Qed.

Lemma read_exact_ok e l v : read_field e l v -> exact_field e l v -> leaf_ok e l v.
Proof.
  destruct l; cbn [read_field exact_field leaf_ok leafval]; intros H1 H2; try exact H1; try exact (proj1 H1).
  - split; assumption.
  - exact H2.
Qed.

Lemma read_exact_clean e l v : read_field e l v -> exact_field e l v -> clean_text l v.
Proof.
  destruct l; cbn [read_field exact_field clean_text leafval] in *; try tauto.
  - intros _ (c & off & n & -> & _ & _ & _ & _ & H). cbn [t_zone]. apply upper_xml. destruct H as [[H _]|[-> _]]; [exact H | constructor].
  - intros (_ & H & _) _. apply upper_xml, H.
Qed.

(** ** Messages *)

Lemma value_kept {A} e t (f : interp t -> A) (g : A -> interp t) n r : (forall v, g (f v) = v) ->
  env_currency e (bs "XXX") = true -> texts xml_string n ->
  option_map f (unmarshal e t n (zero t)) = Some r -> kept (read_field e) t (g r).
Proof.
  intros Hi He Hn H. destruct (unmarshal e t n (zero t)) as [v|] eqn:E; [|discriminate]. cbn [option_map] in H.
  assert (Hr : f v = r) by congruence. rewrite <- Hr, Hi. exact (unmarshal_fields e n t v He Hn E).
Qed.

Lemma inv401k_kept P k : kept P Inv401K_ty (Inv401K_to k) -> Inv401K_LoanInfo k = [].
Proof.
  intros H. unfold Inv401K_ty in H. cbn [kept] in H. unfold Inv401K_fields, Inv401K_to in H.
  do 16 destruct H as [_ H]. destruct H as [[_ H] _]. cbn [snd fst unreached] in H.
  unfold LoanInfo_ty in H. cbn [unreached] in H.
  destruct (Inv401K_LoanInfo k) as [|x l]; [reflexivity|].
  assert (G : map LoanInfo_to (x :: l) = []) by (apply H; discriminate). discriminate G.
Qed.

Lemma invstmt_kept P r : kept P InvStatementResponse_ty (InvStatementResponse_to r) -> no_loans r.
Proof.
  intros H k Ek. unfold InvStatementResponse_ty in H. cbn [kept] in H. unfold InvStatementResponse_fields, InvStatementResponse_to in H.
  do 11 destruct H as [_ H]. destruct H as [[H _] _]. cbn [snd fst] in H. rewrite Ek in H. cbn [option_map kept] in H.
  exact (inv401k_kept P k H).
Qed.

Definition loanless (m : Message) : Prop := match m with MsgInvStatementResponse r => no_loans r | _ => True end.

Lemma reads_kept e n m : env_currency e (bs "XXX") = true -> texts xml_string n -> reads_as e n m ->
  message_every (read_field e) m /\ loanless m.
Proof.
  intros He Hn H. destruct m; cbn [reads_as message_every loanless] in *; (split; [apply kept_every|]); try exact I.
  - exact (value_kept e _ _ _ n _ AcctInfoRequest_inv He Hn H).
  - exact (value_kept e _ _ _ n _ StatementRequest_inv He Hn H).
  - exact (value_kept e _ _ _ n _ CCStatementRequest_inv He Hn H).
  - exact (value_kept e _ _ _ n _ InvStatementRequest_inv He Hn H).
  - exact (value_kept e _ _ _ n _ SecListRequest_inv He Hn H).
  - exact (value_kept e _ _ _ n _ ProfileRequest_inv He Hn H).
  - exact (value_kept e _ _ _ n _ AcctInfoResponse_inv He Hn H).
  - exact (value_kept e _ _ _ n _ StatementResponse_inv He Hn H).
  - exact (value_kept e _ _ _ n _ CCStatementResponse_inv He Hn H).
  - exact (value_kept e _ _ _ n _ InvStatementResponse_inv He Hn H).
  - exact (invstmt_kept _ _ (value_kept e _ _ _ n _ InvStatementResponse_inv He Hn H)).
  - exact (value_kept e _ _ _ n _ SecListResponse_inv He Hn H).
  - exact (value_kept e _ _ _ n _ SecurityList_inv He Hn H).
  - exact (value_kept e _ _ _ n _ ProfileResponse_inv He Hn H).
Qed.

Lemma solid_in n kids : In n (solid kids) -> In n kids.
Proof. unfold solid. rewrite filter_In. tauto. Qed.

Lemma texts_in ok nm kids n : texts ok (Elem nm kids) -> In n kids -> texts ok n.
Proof. rewrite texts_kids, Forall_forall. auto. Qed.

Lemma filed_texts ok set kids n : Forall (texts ok) kids -> In n (filed_under set kids) -> texts ok n.
Proof.
  intros Hk H. apply filed_incl in H as (sub & H1 & H2). rewrite Forall_forall in Hk.
  apply Hk in H1. apply (texts_in ok _ _ n H1), solid_in. exact H2.
Qed.

Lemma Forall2_in_fst {A B} (R : A -> B -> Prop) l k x : Forall2 R l k -> In x l -> exists y, In y k /\ R x y.
Proof.
  induction 1 as [|a b l k Hab _ IH]; [intros []|]. intros [<-|H]; [exists b; split; [left; reflexivity | exact Hab]|].
  destruct (IH H) as (y & Hy & Hr). exists y. split; [right; exact Hy | exact Hr].
Qed.

Lemma reads_response e n r : env_currency e (bs "XXX") = true -> texts xml_string n -> response_reads e n r ->
  response_every (read_field e) r /\
  forall set ms m, In (set, ms) (response_sets (rs_slots r)) -> In m ms -> belongs_in m = set /\ loanless m.
Proof.
  intros He Hn (kids & before & x & after & sets & -> & Es & Hb & Ha & Hx & Eu & H1 & H2).
  assert (Hs : Forall (texts xml_string) (Elem (bs "SIGNONMSGSRSV1") (before ++ x :: after) :: sets)).
  { rewrite <- Es. apply Forall_forall. intros k Hk. exact (texts_in _ _ _ k Hn (solid_in k kids Hk)). }
  inversion Hs as [|? ? Hs1 Hs2]; subst.
  assert (Hm : forall set ms m, In (set, ms) (response_sets (rs_slots r)) -> In m ms ->
            belongs_in m = set /\ message_every (read_field e) m /\ loanless m).
  { intros set ms m Hset Hin. destruct (Forall2_in_fst _ _ _ _ (H2 set ms Hset) Hin) as (y & Hy & Hb1 & _ & Hr).
    split; [exact Hb1|]. apply (reads_kept e y m He); [|exact Hr]. exact (filed_texts _ _ _ _ Hs2 Hy). }
  split; [split|].
  - apply kept_every. refine (value_kept e _ _ _ x _ SignonResponse_inv He _ Eu).
    apply (texts_in _ _ _ x Hs1). apply in_or_app. right. left. reflexivity.
  - intros set ms m Hset Hin. apply (Hm set ms m Hset Hin).
  - intros set ms m Hset Hin. destruct (Hm set ms m Hset Hin) as (H & _ & H'). auto.
Qed.

Lemma decoded_version e s r : decode_response e s = Some r -> known_version (rs_version r).
Proof.
  intros H. destruct (guess_xml s) eqn:Eg.
  - assert (Hs : ~ looks_like_sgml s) by (rewrite <- guess_sgml_iff; congruence).
    destruct (decoded_xml_header e s r Hs H) as (b1 & decl & b2 & inst & rest & _ & _ & _ & Hh).
    destruct Hh as (before & value & after & _ & (t & _ & Hv) & _). exists t. apply in_or_app. right. exact Hv.
  - apply guess_sgml_iff in Eg. destruct (decoded_sgml_header e s r Eg H) as (h & body & _ & Hh & _).
    destruct Hh as (version & se & en & cs & o & nw & _ & Hv & _). exists version. apply in_or_app. left. exact Hv.
Qed.

Theorem decoded_fields e s r : env_currency e (bs "XXX") = true -> decode_response e s = Some r ->
  response_every (read_field e) r /\ known_version (rs_version r) /\
  forall set ms m, In (set, ms) (response_sets (rs_slots r)) -> In m ms -> belongs_in m = set /\ loanless m.
Proof.
  intros He H. pose proof (decoded_version e s r H) as Hv. unfold decode_response in H.
  destruct (read_document s) as [[v n]|] eqn:E; [|discriminate]. cbn [bind fst snd] in H.
  apply decode_ofx_iff in H as [_ H]. apply read_document_texts in E.
  destruct (reads_response e n r He E H) as [H1 H2]. auto.
Qed.

(** ** Writing it again *)

Lemma message_named_encodable m : message_named m -> encodable m.
Proof.
  destruct m; cbn [message_named encodable]; auto. apply Forall_impl. intros x (stem & E & (c & r0 & -> & _) & _).
  exists (c :: r0). split; [discriminate | exact E].
Qed.

Lemma message_all e m : message_every (read_field e) m -> message_every (exact_field e) m -> loanless m -> message_named m ->
  message_representable e m /\ message_clean m.
Proof.
  intros H1 H2 H3 H4.
  assert (G : message_every (leaf_ok e) m /\ message_every clean_text m).
  { split; destruct m; cbn [message_every] in *;
      first [exact (every_both _ _ _ (read_exact_ok e) _ _ H1 H2) | exact (every_both _ _ _ (read_exact_clean e) _ _ H1 H2)]. }
  destruct G as [G1 G2]. split; [|split; assumption].
  destruct m; cbn [message_representable message_every loanless] in *; try exact G1. split; assumption.
Qed.

Theorem decoded_canonical e s r : env_currency e (bs "XXX") = true ->
  parse_response e s = (Some r, None) -> response_every (exact_field e) r -> response_named r ->
  exists b, response_marshal r = Some b /\ forall rest, parse_response e (b ++ rest) = (Some r, None).
Proof.
  intros He Hp [Hx1 Hx2] Hn. unfold parse_response in Hp.
  destruct (decode_response e s) as [r'|] eqn:Ed; [|discriminate]. injection Hp as -> Hval.
  destruct (decoded_fields e s r He Ed) as ([Hf1 Hf2] & Hv & Hb).
  assert (Hrep : response_representable e r).
  { split; [exact (every_both _ _ _ (read_exact_ok e) _ _ Hf1 Hx1)|]. intros set ms m Hs Hm.
    apply (message_all e m (Hf2 _ _ _ Hs Hm) (Hx2 _ _ _ Hs Hm)); [apply (Hb _ _ _ Hs Hm) | exact (Hn _ _ _ Hs Hm)]. }
  assert (Hclean : response_clean r).
  { split; [exact (every_both _ _ _ (read_exact_clean e) _ _ Hf1 Hx1)|]. intros set ms m Hs Hm.
    apply (message_all e m (Hf2 _ _ _ Hs Hm) (Hx2 _ _ _ Hs Hm)); [apply (Hb _ _ _ Hs Hm) | exact (Hn _ _ _ Hs Hm)]. }
  pose proof Hval as Hval'. apply response_valid_iff in Hval' as [Hs Hm].
  assert (Ht : some (response_tree r)).
  { apply response_tree_iff. split; [exact Hs|]. intros set ms m H1 H2. split; [apply (Hb _ _ _ H1 H2)|].
    split; [exact (Hm _ _ _ H1 H2) | exact (message_named_encodable m (Hn _ _ _ H1 H2))]. }
  apply some_ex in Ht as [t Et].
  exists (header_or_nothing (rs_version r) false ++ print (mkStyle true false []) true 0 t).
  assert (Em : response_marshal r = Some (header_or_nothing (rs_version r) false ++ print (mkStyle true false []) true 0 t)).
  { unfold response_marshal. rewrite Et. reflexivity. }
  split; [exact Em|]. intros rest. unfold parse_response.
  rewrite (response_round_trip e r _ rest Hrep Hclean Hv Em), Hval. reflexivity.
Qed.
