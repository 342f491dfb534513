(** Proofs about the accessor methods of the items of lists. *)
From Coq Require Import QArith Lia.
From Coq Require Import List.
From Verif Require Import GoStr GoStrFacts GoTime Types Enums Records Accessors Messages Codec SpecCodec Schema Document
  SpecDocument SpecLists CodecFacts CodecSim DocumentFacts SetsFacts ListFacts.
Close Scope Q_scope.
Import ListNotations.

Lemma leading_here nm k : leading nm (Elem nm k) = Some (Elem nm k).
Proof. cbn [leading]. rewrite str_eqb_refl. reflexivity. Qed.

Lemma leading_down nm x n k : str_eqb x nm = false -> leading nm (Elem x (n :: k)) = leading nm n.
Proof. intros H. cbn [leading]. rewrite H. reflexivity. Qed.

Lemma struct_elem x fs force name o v ns :
  marshal (TStruct x fs) force name o v = Some ns -> exists k, ns = [Elem (if force || null x then name else x) k].
Proof. cbn [marshal]. destruct (struct_cmds fs [] v); [|discriminate]. intros H. injection H as <-. eauto. Qed.

Lemma lead1 x fs' nm fs name (v : interp_flds (FCons [] nm false (TStruct nm fs') fs)) n :
  null nm = false -> str_eqb name nm = false ->
  marshal (TStruct x (FCons [] nm false (TStruct nm fs') fs)) true name false v = Some [n] ->
  common nm (TStruct nm fs') (fst v) n.
Proof.
  intros Hn He H. apply first_field in H; [|reflexivity]. destruct H as (nodes & more & H1 & E).
  cbn [orb] in E. injection E as ->. unfold common, encode_as.
  assert (E2 : marshal (TStruct nm fs') false [] false (fst v) = Some nodes).
  { rewrite <- H1. cbn [marshal orb]. rewrite Hn. reflexivity. }
  destruct (struct_elem _ _ _ _ _ _ _ E2) as [k ->]. cbn [orb]. rewrite Hn in *. cbn [orb app] in *.
  exists (Elem nm k). split; [|exact E2]. rewrite leading_down by exact He. apply leading_here.
Qed.

Lemma lead2 x nm1 fs1 fs' nm fs name
  (v : interp_flds (FCons [] nm1 false (TStruct nm1 (FCons [] nm false (TStruct nm fs') fs1)) fs)) n :
  null nm = false -> null nm1 = false -> str_eqb name nm = false -> str_eqb nm1 nm = false ->
  marshal (TStruct x (FCons [] nm1 false (TStruct nm1 (FCons [] nm false (TStruct nm fs') fs1)) fs)) true name false v = Some [n] ->
  common nm (TStruct nm fs') (fst (fst v)) n.
Proof.
  intros Hn Hn1 He He1 H. apply first_field in H; [|reflexivity]. destruct H as (nodes & more & H1 & E).
  cbn [orb] in E. injection E as ->.
  destruct (struct_elem _ _ _ _ _ _ _ H1) as [k ->].
  assert (E2 : marshal (TStruct nm1 (FCons [] nm false (TStruct nm fs') fs1)) true nm1 false (fst v) =
    Some [Elem (if false || null nm1 then nm1 else nm1) k]).
  { rewrite <- H1. cbn [marshal orb]. rewrite Hn1. reflexivity. }
  apply lead1 in E2; [|assumption|assumption]. destruct E2 as (m & L & E2). exists m. split; [|exact E2].
  cbn [app]. rewrite leading_down by exact He. exact L.
Qed.

Lemma transaction_common t n : marshal_alt InvTransaction_alts (InvTransaction_to t) = Some [n] ->
  common (bs "INVTRAN") InvTran_ty (InvTran_to (InvTransaction_InvTransaction_method t)) n.
Proof.
  destruct t; intros H.
  - change (marshal BuyDebt_ty true (bs "BUYDEBT") false (BuyDebt_to x) = Some [n]) in H.
    unfold BuyDebt_ty, BuyDebt_fields, InvBuy_ty, InvBuy_fields, InvTran_ty in H.
    apply lead2 in H; [exact H | reflexivity ..].
  - change (marshal BuyMF_ty true (bs "BUYMF") false (BuyMF_to x) = Some [n]) in H.
    unfold BuyMF_ty, BuyMF_fields, InvBuy_ty, InvBuy_fields, InvTran_ty in H.
    apply lead2 in H; [exact H | reflexivity ..].
  - change (marshal BuyOpt_ty true (bs "BUYOPT") false (BuyOpt_to x) = Some [n]) in H.
    unfold BuyOpt_ty, BuyOpt_fields, InvBuy_ty, InvBuy_fields, InvTran_ty in H.
    apply lead2 in H; [exact H | reflexivity ..].
  - change (marshal BuyOther_ty true (bs "BUYOTHER") false (BuyOther_to x) = Some [n]) in H.
    unfold BuyOther_ty, BuyOther_fields, InvBuy_ty, InvBuy_fields, InvTran_ty in H.
    apply lead2 in H; [exact H | reflexivity ..].
  - change (marshal BuyStock_ty true (bs "BUYSTOCK") false (BuyStock_to x) = Some [n]) in H.
    unfold BuyStock_ty, BuyStock_fields, InvBuy_ty, InvBuy_fields, InvTran_ty in H.
    apply lead2 in H; [exact H | reflexivity ..].
  - change (marshal ClosureOpt_ty true (bs "CLOSUREOPT") false (ClosureOpt_to x) = Some [n]) in H.
    unfold ClosureOpt_ty, ClosureOpt_fields, InvTran_ty in H.
    apply lead1 in H; [exact H | reflexivity ..].
  - change (marshal Income_ty true (bs "INCOME") false (Income_to x) = Some [n]) in H.
    unfold Income_ty, Income_fields, InvTran_ty in H.
    apply lead1 in H; [exact H | reflexivity ..].
  - change (marshal InvExpense_ty true (bs "INVEXPENSE") false (InvExpense_to x) = Some [n]) in H.
    unfold InvExpense_ty, InvExpense_fields, InvTran_ty in H.
    apply lead1 in H; [exact H | reflexivity ..].
  - change (marshal JrnlFund_ty true (bs "JRNLFUND") false (JrnlFund_to x) = Some [n]) in H.
    unfold JrnlFund_ty, JrnlFund_fields, InvTran_ty in H.
    apply lead1 in H; [exact H | reflexivity ..].
  - change (marshal JrnlSec_ty true (bs "JRNLSEC") false (JrnlSec_to x) = Some [n]) in H.
    unfold JrnlSec_ty, JrnlSec_fields, InvTran_ty in H.
    apply lead1 in H; [exact H | reflexivity ..].
  - change (marshal MarginInterest_ty true (bs "MARGININTEREST") false (MarginInterest_to x) = Some [n]) in H.
    unfold MarginInterest_ty, MarginInterest_fields, InvTran_ty in H.
    apply lead1 in H; [exact H | reflexivity ..].
  - change (marshal Reinvest_ty true (bs "REINVEST") false (Reinvest_to x) = Some [n]) in H.
    unfold Reinvest_ty, Reinvest_fields, InvTran_ty in H.
    apply lead1 in H; [exact H | reflexivity ..].
  - change (marshal RetOfCap_ty true (bs "RETOFCAP") false (RetOfCap_to x) = Some [n]) in H.
    unfold RetOfCap_ty, RetOfCap_fields, InvTran_ty in H.
    apply lead1 in H; [exact H | reflexivity ..].
  - change (marshal SellDebt_ty true (bs "SELLDEBT") false (SellDebt_to x) = Some [n]) in H.
    unfold SellDebt_ty, SellDebt_fields, InvSell_ty, InvSell_fields, InvTran_ty in H.
    apply lead2 in H; [exact H | reflexivity ..].
  - change (marshal SellMF_ty true (bs "SELLMF") false (SellMF_to x) = Some [n]) in H.
    unfold SellMF_ty, SellMF_fields, InvSell_ty, InvSell_fields, InvTran_ty in H.
    apply lead2 in H; [exact H | reflexivity ..].
  - change (marshal SellOpt_ty true (bs "SELLOPT") false (SellOpt_to x) = Some [n]) in H.
    unfold SellOpt_ty, SellOpt_fields, InvSell_ty, InvSell_fields, InvTran_ty in H.
    apply lead2 in H; [exact H | reflexivity ..].
  - change (marshal SellOther_ty true (bs "SELLOTHER") false (SellOther_to x) = Some [n]) in H.
    unfold SellOther_ty, SellOther_fields, InvSell_ty, InvSell_fields, InvTran_ty in H.
    apply lead2 in H; [exact H | reflexivity ..].
  - change (marshal SellStock_ty true (bs "SELLSTOCK") false (SellStock_to x) = Some [n]) in H.
    unfold SellStock_ty, SellStock_fields, InvSell_ty, InvSell_fields, InvTran_ty in H.
    apply lead2 in H; [exact H | reflexivity ..].
  - change (marshal Split_ty true (bs "SPLIT") false (Split_to x) = Some [n]) in H.
    unfold Split_ty, Split_fields, InvTran_ty in H.
    apply lead1 in H; [exact H | reflexivity ..].
  - change (marshal Transfer_ty true (bs "TRANSFER") false (Transfer_to x) = Some [n]) in H.
    unfold Transfer_ty, Transfer_fields, InvTran_ty in H.
    apply lead1 in H; [exact H | reflexivity ..].
Qed.

Lemma security_common t n : marshal_alt Security_alts (Security_to t) = Some [n] ->
  common (bs "SECINFO") SecInfo_ty (SecInfo_to (Security_SecurityInfo_method t)) n.
Proof.
  destruct t; intros H.
  - change (marshal DebtInfo_ty true (bs "DEBTINFO") false (DebtInfo_to x) = Some [n]) in H.
    unfold DebtInfo_ty, DebtInfo_fields, SecInfo_ty in H.
    apply lead1 in H; [exact H | reflexivity ..].
  - change (marshal MFInfo_ty true (bs "MFINFO") false (MFInfo_to x) = Some [n]) in H.
    unfold MFInfo_ty, MFInfo_fields, SecInfo_ty in H.
    apply lead1 in H; [exact H | reflexivity ..].
  - change (marshal OptInfo_ty true (bs "OPTINFO") false (OptInfo_to x) = Some [n]) in H.
    unfold OptInfo_ty, OptInfo_fields, SecInfo_ty in H.
    apply lead1 in H; [exact H | reflexivity ..].
  - change (marshal OtherInfo_ty true (bs "OTHERINFO") false (OtherInfo_to x) = Some [n]) in H.
    unfold OtherInfo_ty, OtherInfo_fields, SecInfo_ty in H.
    apply lead1 in H; [exact H | reflexivity ..].
  - change (marshal StockInfo_ty true (bs "STOCKINFO") false (StockInfo_to x) = Some [n]) in H.
    unfold StockInfo_ty, StockInfo_fields, SecInfo_ty in H.
    apply lead1 in H; [exact H | reflexivity ..].
Qed.

Lemma position_common t n : marshal_alt Position_alts (Position_to t) = Some [n] ->
  common (bs "INVPOS") InvPosition_ty (InvPosition_to (Position_InvPosition_method t)) n.
Proof.
  destruct t; intros H.
  - change (marshal DebtPosition_ty true (bs "POSDEBT") false (DebtPosition_to x) = Some [n]) in H.
    unfold DebtPosition_ty, DebtPosition_fields, InvPosition_ty in H.
    apply lead1 in H; [exact H | reflexivity ..].
  - change (marshal MFPosition_ty true (bs "POSMF") false (MFPosition_to x) = Some [n]) in H.
    unfold MFPosition_ty, MFPosition_fields, InvPosition_ty in H.
    apply lead1 in H; [exact H | reflexivity ..].
  - change (marshal OptPosition_ty true (bs "POSOPT") false (OptPosition_to x) = Some [n]) in H.
    unfold OptPosition_ty, OptPosition_fields, InvPosition_ty in H.
    apply lead1 in H; [exact H | reflexivity ..].
  - change (marshal OtherPosition_ty true (bs "POSOTHER") false (OtherPosition_to x) = Some [n]) in H.
    unfold OtherPosition_ty, OtherPosition_fields, InvPosition_ty in H.
    apply lead1 in H; [exact H | reflexivity ..].
  - change (marshal StockPosition_ty true (bs "POSSTOCK") false (StockPosition_to x) = Some [n]) in H.
    unfold StockPosition_ty, StockPosition_fields, InvPosition_ty in H.
    apply lead1 in H; [exact H | reflexivity ..].
Qed.

Lemma security_list_common r kids :
  encode_as SecurityList_ty (SecurityList_to r) = Some [Elem (bs "SECLIST") kids] ->
  Forall2 (fun s n => common (bs "SECINFO") SecInfo_ty (SecInfo_to (Security_SecurityInfo_method s)) n)
    (SecurityList_Securities r) kids.
Proof.
  intros E.
  change (encode_as SecurityList_ty (SecurityList_to r)) with
    (bind (bind (concat_opt (marshal_alt Security_alts) (map Security_to (SecurityList_Securities r)))
      (fun a => Some (a ++ []))) (fun k => Some [Elem (bs "SECLIST") k])) in E.
  destruct (concat_opt _ _) as [k|] eqn:Ek; [|discriminate]. cbn [bind] in E.
  rewrite app_nil_r in E. assert (k = kids) by congruence. subst k.
  apply concat_alt_each in Ek; [|reflexivity]. rewrite Forall2_map_l in Ek.
  clear E. induction Ek; constructor; auto. apply security_common; assumption.
Qed.

Lemma position_list_common l kids :
  encode_as PositionList_ty (map Position_to l) = Some [Elem (bs "INVPOSLIST") kids] ->
  Forall2 (fun s n => common (bs "INVPOS") InvPosition_ty (InvPosition_to (Position_InvPosition_method s)) n) l kids.
Proof.
  intros E.
  change (encode_as PositionList_ty (map Position_to l)) with
    (bind (concat_opt (marshal_alt Position_alts) (map Position_to l)) (fun k => Some [Elem (bs "INVPOSLIST") k])) in E.
  destruct (concat_opt _ _) as [k|] eqn:Ek; [|discriminate]. cbn [bind] in E. assert (k = kids) by congruence. subst k.
  apply concat_alt_each in Ek; [|reflexivity]. rewrite Forall2_map_l in Ek.
  clear E. induction Ek; constructor; auto. apply position_common; assumption.
Qed.

Lemma having_all nms ns : Forall (fun n => exists nm, In nm nms /\ is_element nm n) ns -> having nms ns = ns.
Proof.
  induction 1 as [|n ns (nm & Hin & k & ->) _ IH]; [reflexivity|]. rewrite having_cons, IH.
  assert (E : existsb (str_eqb nm) nms = true); [|rewrite E; reflexivity].
  apply existsb_exists. exists nm. split; [exact Hin | apply str_eqb_refl].
Qed.

Lemma having_none nms ns : Forall (fun n => exists nm, existsb (str_eqb nm) nms = false /\ is_element nm n) ns -> having nms ns = [].
Proof.
  induction 1 as [|n ns (nm & Hin & k & ->) _ IH]; [reflexivity|]. rewrite having_cons, IH, Hin. reflexivity.
Qed.

Lemma having_app nms a b : having nms (a ++ b) = having nms a ++ having nms b.
Proof. apply filter_app. Qed.

Lemma transaction_name_in t : In (transaction_name t) transaction_names.
Proof. unfold transaction_names. destruct t; cbn [transaction_name map In]; repeat (first [left; reflexivity | right]). Qed.

Lemma tran_list_common r kids :
  encode_as InvTranList_ty (InvTranList_to r) = Some [Elem (bs "INVTRANLIST") kids] ->
  Forall2 (fun s n => common (bs "INVTRAN") InvTran_ty (InvTran_to (InvTransaction_InvTransaction_method s)) n)
    (InvTranList_InvTransactions r) (having transaction_names kids).
Proof.
  intros E. destruct (tran_list_encode_each r) as (d1 & d2 & ts & bts & E' & _ & _ & Hts & Hb).
  rewrite E' in E. assert (Ek : kids = Elem (bs "DTSTART") d1 :: Elem (bs "DTEND") d2 :: ts ++ bts) by congruence.
  subst kids. clear E E'. rewrite !having_cons.
  change (existsb (str_eqb (bs "DTSTART")) transaction_names) with false.
  change (existsb (str_eqb (bs "DTEND")) transaction_names) with false. cbv iota.
  rewrite having_app, (having_all _ ts), (having_none _ bts), app_nil_r.
  - induction Hts as [|t n ts' ns [Hn Hm] _ IH]; constructor; auto. apply transaction_common. exact Hm.
  - clear - Hb. induction Hb as [|b n l l' [k ->] _ IH]; constructor; auto.
    exists (bs "INVBANKTRAN"). split; [reflexivity | exists k; reflexivity].
  - clear - Hts. induction Hts as [|t n l l' [Hn _] _ IH]; constructor; auto.
    exists (transaction_name t). split; [apply transaction_name_in | exact Hn].
Qed.
