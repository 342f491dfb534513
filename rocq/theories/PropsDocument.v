(** C24-C27, C32, C47, C52, C54: requests and responses as document trees. *)
From Coq Require Import QArith.
From Verif Require Import GoStr GoTime Types Enums EnumTables Records Common Messages Codec SpecCodec Schema Document SpecValid
  SpecDocument ValidFacts SetsFacts FilingFacts TreeFacts Samples.
Close Scope Q_scope.

(** C24: Marshal succeeds iff the sign-on is valid and every message belongs to
    the set it is in, is valid for the version and can be encoded. *)
Theorem C24_request : forall q,
  request_tree q <> None <->
  signon_ok (rq_signon q) /\ slots_acceptable (rq_version q) (request_sets (rq_slots q)).
Proof. exact request_tree_iff. Qed.
Print Assumptions C24_request.

Theorem C24_response : forall r,
  response_tree r <> None <->
  signon_response_ok (rs_signon r) /\ slots_acceptable (rs_version r) (response_sets (rs_slots r)).
Proof. exact response_tree_iff. Qed.
Print Assumptions C24_response.

Example C24_case :
  request_tree sample_request <> None /\ response_tree sample_response <> None /\
  (* a statement request among the profile requests *)
  request_tree (mkRequest [] OfxVersion203 sample_signon_request
    (mkSlots [] [] [] [] [] [] [] [] [] [] [] []
       [MsgStatementRequest (mkStatementRequest (bs "123") [] [] sample_acct None None true false false)] []) true false) = None /\
  (* pending transactions before version 220 *)
  request_tree (mkRequest [] OfxVersion203 sample_signon_request
    (mkSlots [] [MsgStatementRequest (mkStatementRequest (bs "123") [] [] sample_acct None None true true false)]
       [] [] [] [] [] [] [] [] [] [] [] []) true false) = None.
Proof. split; [vm_compute; discriminate|]. split; [vm_compute; discriminate|]. split; vm_compute; reflexivity. Qed.

(** C25: what Marshal writes: the sign-on set first, then one element for each
    set that is not empty, in the order of [request_sets], holding one element
    for each message, in order. *)
Theorem C25_request : forall q t q', request_tree q = Some (t, q') ->
  q' = sent_request q /\
  exists sonrq sets,
    t = Elem (bs "OFX") (Elem (bs "SIGNONMSGSRQV1") [Elem (bs "SONRQ") sonrq] :: sets) /\
    encode_as SignonRequest_ty (SignonRequest_to (sent_signon (rq_signon q))) = Some [Elem (bs "SONRQ") sonrq] /\
    sets_written (fun m => written_as (sent m)) (request_sets (rq_slots q)) sets.
Proof.
  intros q t q' H. destruct (request_tree_spec q t q' H) as (H1 & k & ns & H2 & H3 & H4).
  split; [exact H1|]. exists k, ns. split; [exact H2|]. split; [exact H3|].
  exact (sets_written_impl _ _ _ _ encodes_written H4).
Qed.
Print Assumptions C25_request.

Theorem C25_response : forall r t, response_tree r = Some t ->
  exists sonrs sets,
    t = Elem (bs "OFX") (Elem (bs "SIGNONMSGSRSV1") [Elem (bs "SONRS") sonrs] :: sets) /\
    encode_as SignonResponse_ty (SignonResponse_to (rs_signon r)) = Some [Elem (bs "SONRS") sonrs] /\
    sets_written (fun m => written_as (sent m)) (response_sets (rs_slots r)) sets.
Proof.
  intros r t H. destruct (response_tree_spec r t H) as (k & ns & H2 & H3 & H4).
  exists k, ns. split; [exact H2|]. split; [exact H3|].
  exact (sets_written_impl _ _ _ _ encodes_written H4).
Qed.
Print Assumptions C25_response.

Definition names_below (n : node) : list str :=
  match n with Elem _ kids => flat_map (fun k => match k with Elem x _ => [x] | _ => [] end) kids | _ => [] end.

Example C25_case :
  (exists t q', request_tree sample_request = Some (t, q') /\
    names_below t = [bs "SIGNONMSGSRQV1"; bs "BANKMSGSRQV1"; bs "PROFMSGSRQV1"]) /\
  (exists t, response_tree sample_response = Some t /\
    names_below t = [bs "SIGNONMSGSRSV1"; bs "BANKMSGSRSV1"; bs "INVSTMTMSGSRSV1"; bs "SECLISTMSGSRSV1"; bs "PROFMSGSRSV1"]).
Proof.
  split.
  - assert (H : option_map (fun x => names_below (fst x)) (request_tree sample_request) =
      Some [bs "SIGNONMSGSRQV1"; bs "BANKMSGSRQV1"; bs "PROFMSGSRQV1"]) by (vm_compute; reflexivity).
    destruct (request_tree sample_request) as [[t q']|]; [|discriminate H].
    exists t, q'. split; [reflexivity|]. cbn [option_map fst] in H. congruence.
  - assert (H : option_map names_below (response_tree sample_response) =
      Some [bs "SIGNONMSGSRSV1"; bs "BANKMSGSRSV1"; bs "INVSTMTMSGSRSV1"; bs "SECLISTMSGSRSV1"; bs "PROFMSGSRSV1"])
      by (vm_compute; reflexivity).
    destruct (response_tree sample_response) as [t|]; [|discriminate H].
    exists t. split; [reflexivity|]. cbn [option_map] in H. congruence.
Qed.

(** C26: a document decodes to a response iff it says so, element by element;
    in particular an unknown set or a message in the wrong set is an error. *)
Theorem C26_decode : forall e version ofx r,
  decode_ofx e version ofx = Some r <-> rs_version r = version /\ response_reads e ofx r.
Proof. exact decode_ofx_iff. Qed.
Print Assumptions C26_decode.

Theorem C26_unknown_set : forall e version kids sub nm,
  In (Elem nm sub) kids -> nm <> bs "SIGNONMSGSRSV1" -> ~ In nm response_set_names ->
  decode_ofx e version (Elem (bs "OFX") kids) = None.
Proof.
  intros e v kids sub nm Hin Hs Hn. destruct (decode_ofx e v (Elem (bs "OFX") kids)) as [r|] eqn:E; [|reflexivity].
  exfalso. apply decode_ofx_iff in E as (_ & k & b & x & a & sets & Ek & Es & _ & _ & _ & _ & HF & _).
  assert (Ekk : kids = k) by congruence. subst k.
  assert (Hk : In (Elem nm sub) (solid kids)) by (apply filter_In; auto).
  rewrite Es in Hk. destruct Hk as [Ek'|Hk]; [apply Hs; congruence|].
  rewrite Forall_forall in HF. destruct (HF _ Hk) as (set & sub' & E & Hset).
  apply Hn. assert (nm = set) by congruence. subst. exact Hset.
Qed.
Print Assumptions C26_unknown_set.

Theorem C26_misplaced : forall e version kids set sub nm k,
  In (Elem set sub) kids -> set <> bs "SIGNONMSGSRSV1" -> In (Elem nm k) sub ->
  (forall m, belongs_in m = set -> transaction_tag m <> nm) ->
  decode_ofx e version (Elem (bs "OFX") kids) = None.
Proof.
  intros e v kids set sub nm k Hin Hs Hsub Hm. destruct (decode_ofx e v (Elem (bs "OFX") kids)) as [r|] eqn:E; [|reflexivity].
  exfalso. apply decode_ofx_iff in E as (_ & k' & b & x & a & sets & Ek & Es & _ & _ & _ & _ & HN & HF).
  assert (Ekk : kids = k') by congruence. subst k'.
  assert (Hk : In (Elem set sub) (solid kids)) by (apply filter_In; auto).
  rewrite Es in Hk. destruct Hk as [Ek'|Hk]; [apply Hs; congruence|].
  rewrite Forall_forall in HN. destruct (HN _ Hk) as (set' & sub' & E & Hset).
  assert (set = set') by congruence. subst set'.
  apply names_body_sets in Hset as (s & Hbody & ->).
  specialize (HF _ _ (slot_response_sets (rs_slots r) s Hbody)).
  assert (Hf : In (Elem nm k) (filed_under (msgtype_string (s, Rs)) sets)).
  { apply filed_incl. exists sub. split; [exact Hk|]. apply filter_In. auto. }
  clear - HF Hf Hm. induction HF as [|m n ms ns (Hb & [kk En] & _) _ IH]; [destruct Hf|].
  destruct Hf as [->|Hf]; [|exact (IH Hf)]. apply (Hm m Hb). congruence.
Qed.
Print Assumptions C26_misplaced.

Example C26_case : exists t r,
  response_tree sample_response = Some t /\ decode_ofx sample_env OfxVersion103 t = Some r /\
  length (sl_bank (rs_slots r)) = 2 /\ length (sl_seclist (rs_slots r)) = 2.
Proof.
  assert (H : response_tree sample_response <> None) by (vm_compute; discriminate).
  destruct (response_tree sample_response) as [t|] eqn:E; [|congruence].
  exists t, sample_response. split; [reflexivity|].
  split; [exact (document_round_trip sample_env sample_response t sample_response_representable E)|].
  split; reflexivity.
Qed.

(** C27, on the level of trees: the tree of a response decodes to the response.
    The bytes are the subject of PropsWire.v. *)
Theorem C27_tree : forall e r t,
  response_representable e r -> response_tree r = Some t -> decode_ofx e (rs_version r) t = Some r.
Proof. exact document_round_trip. Qed.
Print Assumptions C27_tree.

Example C27_tree_case : response_representable sample_env sample_response /\ response_tree sample_response <> None.
Proof. split; [exact sample_response_representable | vm_compute; discriminate]. Qed.

(** C71: validation changes a message only by setting the routing of a profile request,
    and only if the request is valid. *)
Theorem C71_effect : forall m v,
  (message_ok v m -> fst (message_valid m v) = sent m) /\
  (~ message_ok v m -> fst (message_valid m v) = m).
Proof. exact message_valid_effect. Qed.
Print Assumptions C71_effect.

Example C71_effect_case :
  let m := MsgProfileRequest (mkProfileRequest (bs "1") [] [] (bs "SERVICE") zero_time) in
  message_ok OfxVersion203 m /\
  fst (message_valid m OfxVersion203) = MsgProfileRequest (mkProfileRequest (bs "1") [] [] (bs "NONE") zero_time).
Proof. cbv zeta. split; [apply message_valid_iff; vm_compute; reflexivity | reflexivity]. Qed.

(** C32: Response.Valid. *)
Theorem C32_valid : forall r, response_valid r = None <->
  signon_response_ok (rs_signon r) /\
  forall set ms m, In (set, ms) (response_sets (rs_slots r)) -> In m ms -> message_ok (rs_version r) m.
Proof. exact response_valid_iff. Qed.
Print Assumptions C32_valid.

Theorem C32_every_problem : forall r,
  response_valid r = match problems r with [] => None | l => Some (EInvalid (map EPlain l)) end.
Proof. exact response_valid_problems. Qed.
Print Assumptions C32_every_problem.

Theorem C32_flattened : forall errs err,
  Forall is_plain errs -> (forall l, err = Some (EInvalid l) -> Forall is_plain l) ->
  Forall is_plain (add_err errs err) /\
  flat_map plain_errors (add_err errs err) =
    flat_map plain_errors errs ++ match err with None => [] | Some e => plain_errors e end.
Proof. exact add_err_flat. Qed.
Print Assumptions C32_flattened.

Example C32_case :
  response_valid sample_response = None /\
  response_valid (mkResponse OfxVersion103 sample_signon_response
    (mkSlots [] [] [] [] [] [] [] [] []
       [MsgSecListResponse (mkSecListResponse [] sample_status []); MsgSecurityList sample_securities;
        MsgSecListResponse (mkSecListResponse [] sample_status [])] [] [] [] [])) =
  Some (EInvalid [EPlain (bs "UID invalid length"); EPlain (bs "UID invalid length")]) /\
  add_err [EPlain (bs "a")] (Some (EInvalid [EPlain (bs "b"); EPlain (bs "c")])) =
    [EPlain (bs "a"); EPlain (bs "b"); EPlain (bs "c")].
Proof. split; [vm_compute; reflexivity|]. split; vm_compute; reflexivity. Qed.

(** C47: whatever the caller set, profile requests ask for routing NONE. *)
Theorem C47_routing : forall q t q', request_tree q = Some (t, q') ->
  descend (map bs ["PROFMSGSRQV1"; "PROFTRNRQ"; "PROFRQ"; "CLIENTROUTING"]%string) t =
  map (fun _ => Elem (bs "CLIENTROUTING") [Text (bs "NONE")]) (sl_prof (rq_slots q)).
Proof. exact request_routing. Qed.
Print Assumptions C47_routing.

Example C47_case :
  request_tree sample_request <> None /\ length (sl_prof (rq_slots sample_request)) = 2 /\
  ProfileRequest_ClientRouting (sample_profile_request []) = bs "MSGSET".
Proof. split; [vm_compute; discriminate|]. split; reflexivity. Qed.

(** C52: 401(k) loans are never read: a document that has them is rejected. *)
Theorem C52_loans_rejected : forall e version ofx,
  descend (map bs ["INVSTMTMSGSRSV1"; "INVSTMTTRNRS"; "INVSTMTRS"; "INV401K"; "LOANINFO"]%string) ofx <> [] ->
  decode_ofx e version ofx = None.
Proof. exact loan_documents_rejected. Qed.
Print Assumptions C52_loans_rejected.

Definition loans (r : Response) : nat :=
  length (flat_map (fun m => match m with
                             | MsgInvStatementResponse i =>
                                 match InvStatementResponse_Inv401K i with Some k => Inv401K_LoanInfo k | None => [] end
                             | _ => []
                             end) (sl_invstmt (rs_slots r))).

(** Nor are they written: they end up as vesting information. *)
Theorem C52_loans_lost_refuted : exists e r t,
  response_tree r = Some t /\ decode_ofx e (rs_version r) t <> Some r /\
  descend (map bs ["INVSTMTMSGSRSV1"; "INVSTMTTRNRS"; "INVSTMTRS"; "INV401K"; "LOANINFO"]%string) t = [] /\
  (forall m, In m (sl_invstmt (rs_slots r)) -> forall i, m = MsgInvStatementResponse i ->
     representable e InvStatementResponse_ty (InvStatementResponse_to i)).
Proof.
  exists sample_env, sample_loan_response.
  set (path := map bs ["INVSTMTMSGSRSV1"; "INVSTMTTRNRS"; "INVSTMTRS"; "INV401K"; "LOANINFO"]%string).
  assert (H : match response_tree sample_loan_response with
              | Some t => match decode_ofx sample_env (rs_version sample_loan_response) t with
                          | Some r => Nat.eqb (loans r) 0
                          | None => true
                          end && null (descend path t)
              | None => false
              end = true) by (vm_compute; reflexivity).
  destruct (response_tree sample_loan_response) as [t|]; [|discriminate H].
  exists t. split; [reflexivity|]. apply andb_true_iff in H as [H1 H2].
  split; [|split].
  - intros E. rewrite E in H1. vm_compute in H1. discriminate H1.
  - destruct (descend path t); [reflexivity | discriminate H2].
  - intros m [<-|[]] i Ei. assert (Hi : i = mkInvStatementResponse (bs "1003") sample_status [] sample_date (bs "USD")
          (mkInvAcct (bs "broker") (bs "1234")) None [] None [] [] (Some sample_401k) None) by congruence.
    rewrite Hi. apply sample_representable. vm_compute. reflexivity.
Qed.
Print Assumptions C52_loans_lost_refuted.

Example C52_case :
  descend (map bs ["INVSTMTMSGSRSV1"; "INVSTMTTRNRS"; "INVSTMTRS"; "INV401K"; "LOANINFO"]%string)
    (Elem (bs "OFX") [Elem (bs "SIGNONMSGSRSV1") []; Elem (bs "INVSTMTMSGSRSV1") [Elem (bs "INVSTMTTRNRS")
       [Elem (bs "INVSTMTRS") [Elem (bs "INV401K") [Elem (bs "LOANINFO") []]]]]]) = [Elem (bs "LOANINFO") []].
Proof. reflexivity. Qed.

(** C54: marshalling the same request again gives the same document, though the
    first call may change the request. *)
Theorem C54_again : forall q t q', request_tree q = Some (t, q') -> request_tree q' = Some (t, q').
Proof. exact request_tree_again. Qed.
Print Assumptions C54_again.

Example C54_case : exists t q', request_tree sample_request = Some (t, q') /\ q' <> sample_request.
Proof.
  assert (H : request_tree sample_request <> None) by (vm_compute; discriminate).
  destruct (request_tree sample_request) as [[t q']|] eqn:E; [|congruence].
  exists t, q'. split; [reflexivity|]. destruct (request_tree_spec _ _ _ E) as [-> _].
  intros Eq. apply (f_equal (fun q => SignonRequest_Language (rq_signon q))) in Eq. discriminate Eq.
Qed.
