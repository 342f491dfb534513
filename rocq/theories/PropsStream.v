(** C80: documents are decoded in one pass. *)
From Coq Require Import QArith Bool List.
From Verif Require Import GoStr GoTime Types Enums Records Common Messages Codec Schema Document Xml Headers Leaves Wire
  Samples Stream SpecStream StreamFacts.
Close Scope Q_scope.
Open Scope list_scope.

(** DecodeResponse, which reads one token after the other and lets every type take
    its own element from the decoder, returns for all input what reading the whole
    document first and then decoding the tree would: the same response, or an error
    in the same cases. *)
Theorem C80_decode : forall e s,
  exists n, forall fuel, n <= fuel -> stream_response e fuel s = decode_response e s.
Proof. exact response_stream. Qed.
Print Assumptions C80_decode.

(** Whatever its type is, a variable takes exactly one element from the decoder: if
    it can be read, the decoder is then where Skip would have left it, in the element
    around, and has only tokens that were to come. *)
Theorem C80_element : forall e t d sp nm below old v d',
  dc_stk d = EStart sp nm :: below -> reads_element e t nm old d v d' ->
  skips d d' /\ dc_stk d' = below /\ exists used, dc_raw d = used ++ dc_raw d'.
Proof. exact element_reads. Qed.
Print Assumptions C80_element.

(** Its value is the one which the tree of this element has. *)
Theorem C80_value : forall e t d sp nm below old, dc_stk d = EStart sp nm :: below ->
  forall v d', reads_element e t nm old d v d' <->
    exists kids, skips d d' /\
      read_element (dc_strict d) (dc_leaves d) (dc_raw d) [(sp, nm, [])] = Some (Elem nm kids) /\
      unmarshal e t (Elem nm kids) old = Some v.
Proof. exact element_tree. Qed.
Print Assumptions C80_value.

(** What follows the OFX element is not read: it can be replaced by anything, and is
    still in front of the decoder afterwards. Only where SGML leaves out the end tag
    has the first token behind the element been looked at. *)
Theorem C80_rest : forall e version d r d', dc_stk d = [] -> reads_ofx e version d r d' ->
  d' = facing (dc_raw d') d /\
  exists used, dc_raw d = used ++ dc_raw d' /\
    ((forall more, reads_ofx e version (facing (used ++ more) d) r (facing more d)) \/
     exists t tl, dc_strict d = false /\ dc_raw d' = t :: tl /\
       forall more, reads_ofx e version (facing (used ++ t :: more) d) r (facing (t :: more) d)).
Proof. exact ofx_reads. Qed.
Print Assumptions C80_rest.

(** A document in SGML, most of its end tags left out, with more text behind it. The
    decoder stops behind the end of the OFX element; the tokens of the rest are still
    there. *)
Definition case_sgml : list Xml.token :=
  lex false (bs "<OFX><SIGNONMSGSRSV1> <SONRS><STATUS><CODE>0<SEVERITY>INFO</STATUS><DTSERVER>20060115112303<UNKNOWN><A>1</A></UNKNOWN><LANGUAGE>ENG</SONRS></SIGNONMSGSRSV1></OFX>rest<OFX>").
Definition case_decoder : dec := mkDec false ofx_leaf_elements case_sgml [].
Definition case_rest : list Xml.token := [TChar (bs "rest"); TStart [] (bs "OFX")].

Example C80_case_ofx : exists r, reads_ofx sample_env 1 case_decoder r (facing case_rest case_decoder) /\
  Status_Severity (SignonResponse_Status (rs_signon r)) = bs "INFO" /\ SignonResponse_Language (rs_signon r) = bs "ENG".
Proof.
  eexists. split.
  - eexists. intros fuel H. unfold case_decoder. rewrite ofx_within by exact H. vm_compute. reflexivity.
  - split; vm_compute; reflexivity.
Qed.

(** The same when nothing but a foreign end tag closes the OFX element: it has been
    looked at and is left to whoever reads on. *)
Definition case_open : list Xml.token :=
  lex false (bs "<OFX><SIGNONMSGSRSV1><SONRS><STATUS><CODE>0<SEVERITY>INFO</STATUS><DTSERVER>20060115112303<LANGUAGE>ENG</SONRS></SIGNONMSGSRSV1></OTHER>").
Example C80_case_open : exists r,
  reads_ofx sample_env 1 (mkDec false ofx_leaf_elements case_open []) r
    (mkDec false ofx_leaf_elements [TEnd [] (bs "OTHER")] []).
Proof.
  eexists. eexists. intros fuel H. rewrite ofx_within by exact H. vm_compute. reflexivity.
Qed.

(** A list of message sets, read by the hand-written method. *)
Definition case_sets : list Xml.token :=
  lex true (bs "<EMAILMSGSET> <EMAILMSGSETV1><MSGSETCORE><VER>1</VER></MSGSETCORE></EMAILMSGSETV1></EMAILMSGSET></MSGSETLIST><NEXT>").
Example C80_case_element :
  reads_element sample_env (TMsgSets (FCons [bs "MSGSETCORE"] (bs "VER") false (TLeaf LInt) FNil)) (bs "MSGSETLIST") []
    (mkDec true [] case_sets [EStart [] (bs "MSGSETLIST"); EStart [] (bs "PROFRS")])
    [(bs "EMAILMSGSETV1", (1%Z, tt))]
    (mkDec true [] [TStart [] (bs "NEXT")] [EStart [] (bs "PROFRS")]).
Proof. eexists. intros fuel H. rewrite value_within by exact H. vm_compute. reflexivity. Qed.
