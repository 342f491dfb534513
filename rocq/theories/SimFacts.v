(** Decoding a document does not depend on the white space between elements. *)
From Coq Require Import QArith Lia Bool List.
From Verif Require Import GoStr GoTime Types Enums EnumTables Records Common Messages Codec CodecFacts CodecSim
  Schema Document.
Close Scope Q_scope.

Lemma first_elem_solid k :
  first_elem (solid k) = option_map (fun p => (fst p, solid (snd p))) (first_elem k).
Proof.
  induction k as [|n k IH]; [reflexivity|]. destruct n as [nm sub|s|].
  - reflexivity.
  - unfold solid. cbn [filter]. fold (solid k). destruct (negb (blank s)); cbn [first_elem]; exact IH.
  - unfold solid. cbn [filter]. fold (solid k). cbn [first_elem]. exact IH.
Qed.

Lemma sim_first k k' : Forall2 sim k k' ->
  match first_elem k, first_elem k' with
  | None, None => True
  | Some (x, r), Some (x', r') => sim x x' /\ Forall2 sim r r'
  | _, _ => False
  end.
Proof.
  induction 1 as [|n n' k k' H H' IH]; [exact I|]. inversion H; subst; cbn [first_elem]; auto.
Qed.

Lemma sim_decode_message e set n n' : sim n n' -> decode_message e set n = decode_message e set n'.
Proof.
  intros H. inversion H as [| |nm k k' E1 E2]; subst; [reflexivity|reflexivity|].
  unfold decode_message. cbv zeta.
  rewrite !(sim_unmarshal e _ _ _ _ H). reflexivity.
Qed.

Lemma sim_decode_messages e set l l' : Forall2 sim l l' -> decode_messages e set l = decode_messages e set l'.
Proof.
  induction 1 as [|n n' l l' H H' IH]; [reflexivity|]. cbn [decode_messages].
  rewrite (sim_decode_message e set n n' H), IH. reflexivity.
Qed.

Lemma sim_decode_sets e l l' : Forall2 sim l l' -> forall s, decode_sets e l s = decode_sets e l' s.
Proof.
  induction 1 as [|n n' l l' H H' IH]; intros s; [reflexivity|].
  inversion H as [| |nm k k' E1 E2]; subst; [reflexivity|reflexivity|]. cbn [decode_sets].
  destruct (response_set nm) as [set|]; [|reflexivity]. cbn [bind].
  rewrite (sim_decode_messages e set _ _ E2). destruct (decode_messages e set (solid k')); [|reflexivity].
  cbn [bind]. apply IH.
Qed.

Lemma sim_decode_ofx e v n n' : sim n n' -> decode_ofx e v n = decode_ofx e v n'.
Proof.
  intros H. inversion H as [| |nm k k' E1 E2]; subst; [reflexivity|reflexivity|]. unfold decode_ofx.
  destruct (negb (str_eqb nm (bs "OFX"))); [reflexivity|].
  inversion E2 as [|x x' r r' Hx Hr Ea Eb]; [reflexivity|]. clear E2.
  inversion Hx as [| |sn sk sk' F1 F2]; subst; [reflexivity|reflexivity|].
  destruct (negb (str_eqb sn (msgtype_string (MSignon, Rs)))); [reflexivity|].
  pose proof (sim_first _ _ F2) as Hf. rewrite !first_elem_solid in Hf.
  destruct (first_elem sk) as [[y ry]|], (first_elem sk') as [[y' ry']|]; cbn [option_map fst snd] in Hf;
    try contradiction; [|reflexivity].
  destruct Hf as [Hy Hry].
  assert (En : null (solid ry) = null (solid ry')) by (destruct Hry; reflexivity).
  rewrite En. destruct (negb (null (solid ry'))); [reflexivity|].
  rewrite (sim_unmarshal e _ _ _ _ Hy). destruct (unmarshal e SignonResponse_ty y' (zero SignonResponse_ty)); [|reflexivity].
  cbn [bind]. rewrite (sim_decode_sets e _ _ Hr). reflexivity.
Qed.
