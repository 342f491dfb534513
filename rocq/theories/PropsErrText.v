(** C32: the text of a validation error. *)
From Verif Require Import GoStr Types Enums EnumTables Records Common Messages Document SpecDocument Samples PropsDocument ErrText.

(** [s] lists the texts, separated by semicolons. *)
Inductive listed : list str -> str -> Prop :=
| listed_one : forall t, listed [t] t
| listed_more : forall t l s, listed l s -> listed (t :: l) (t ++ bs "; " ++ s).

Lemma join_listed l : l <> [] -> listed l (join (bs "; ") l).
Proof.
  induction l as [|t [|u l] IH]; intros H; [congruence|constructor|].
  change (join (bs "; ") (t :: u :: l)) with (t ++ bs "; " ++ join (bs "; ") (u :: l)).
  constructor. apply IH. discriminate.
Qed.

(** The text names every problem of the response, in order. *)
Theorem C32_error_text : forall r e, response_valid r = Some e ->
  exists s, err_text e = bs "Validation failed: " ++ s /\ listed (problems r) s.
Proof.
  intros r e H. rewrite C32_every_problem in H. exists (join (bs "; ") (problems r)).
  destruct (problems r) as [|p l] eqn:E; [discriminate|]. injection H as <-.
  split.
  - assert (Hm : forall k, map err_text (map EPlain k) = k).
    { induction k as [|x k IH]; [reflexivity|]. cbn [map err_text]. f_equal. exact IH. }
    rewrite <- (Hm (p :: l)) at 1. reflexivity.
  - apply join_listed. discriminate.
Qed.
Print Assumptions C32_error_text.

Example C32_text_case : option_map err_text (response_valid (mkResponse OfxVersion103 sample_signon_response
    (mkSlots [] [] [] [] [] [] [] [] []
       [MsgSecListResponse (mkSecListResponse [] sample_status []); MsgSecurityList sample_securities;
        MsgSecListResponse (mkSecListResponse [] sample_status [])] [] [] [] []))) =
  Some (bs "Validation failed: UID invalid length; UID invalid length").
Proof. vm_compute. reflexivity. Qed.
