(** The text of a value that no name stands for. *)
From Verif Require Import GoStr SpecStr SpecNum GoStrFacts GoNum GoNumFacts Enums EnumTables EnumFacts.
From Coq Require Import Lia Bool.
Local Open Scope N_scope.

Lemma enum_types_check : forallb (fun x => str_eqb (upcase (en_type (fst x))) (upcase (fst (snd x)))) enum_idents = true.
Proof. vm_compute. reflexivity. Qed.

Lemma enum_invalid_text t ty ids v : In (t, (ty, ids)) enum_idents -> ~ (1 <= v <= N.of_nat (length ids)) ->
  exists name num, upcase name = upcase ty /\ integer num (Z.of_N v) /\
    enum_string t v = Some (bs "invalid " ++ name ++ bs " (" ++ num ++ bs ")").
Proof.
  intros Hin Hv. destruct (enum_ident_string t ty ids Hin v) as [Hval _].
  exists (en_type t), (fmt_d (Z.of_N v)). split; [|split; [apply fmt_d_integer|]].
  - pose proof enum_types_check as Hall. rewrite forallb_forall in Hall. specialize (Hall _ Hin). apply str_eqb_eq, Hall.
  - unfold enum_string. destruct (enum_valid t v); [|reflexivity]. exfalso. apply Hv, Hval. reflexivity.
Qed.

Lemma enum_string_all_inj t : In t all_enums -> forall v w, enum_string t v = enum_string t w -> v = w.
Proof.
  intros Hin v w H. pose proof (all_enums_wf t Hin) as Hw.
  assert (D : forall v w, enum_valid t v = true -> enum_valid t w = false -> enum_string t v = enum_string t w -> False).
  { clear v w H. intros v w Hv Hw' H. destruct (enum_string_valid t v Hw Hv) as [n [Hs [Hi _]]].
    destruct (enum_marshal_spec t Hin w) as [(n' & H1 & H2 & _)|(_ & _ & Hno & _)].
    - assert (enum_valid t w = true); [|congruence]. apply (enum_valid_range t w Hw). split; [exact H1|].
      assert (N.to_nat w - 1 < length (en_names t))%nat by (apply nth_error_Some; congruence). lia.
    - apply (Hno n Hi). congruence. }
  destruct (enum_valid t v) eqn:Ev, (enum_valid t w) eqn:Ew.
  - exact (enum_string_inj t Hin v w Ev Ew H).
  - destruct (D v w Ev Ew H).
  - destruct (D w v Ew Ev (eq_sym H)).
  - unfold enum_string in H. rewrite Ev, Ew in H. assert (E : fmt_d (Z.of_N v) = fmt_d (Z.of_N w)); [|apply fmt_d_inj in E; lia].
    assert (G : forall a b : str, Some a = Some b -> a = b) by congruence. apply G in H.
    apply app_inv_head, app_inv_head, app_inv_head, app_inv_tail in H. exact H.
Qed.
