(** Proofs about Stream: reading token by token gives what decoding the finished
    tree gives. *)
From Coq Require Import QArith Lia.
From Verif Require Import GoStr GoStrFacts GoTime Types Enums EnumTables Records Common Messages Codec Schema
  CodecFacts Document Xml Headers Leaves Wire Stream SpecStream.
Close Scope Q_scope.

(** ** The content of an element *)

(** The content of an element of the name [nm] whose start tag has been read, and
    the tokens behind its end. *)
Fixpoint inside (fuel : nat) (st : bool) (lv : list str) (sp nm : str) (raw : list Xml.token) :
  option (list node * list Xml.token) :=
  match fuel with
  | O => None
  | S fuel =>
      let leaf := negb st && fold_member nm lv in
      match raw with
      | [] => None
      | t :: ts =>
          match t with
          | TStart sp' nm' =>
              if leaf then Some ([], t :: ts)
              else
                a <- inside fuel st lv sp' nm' ts ;;
                b <- inside fuel st lv sp nm (snd a) ;;
                Some (Elem nm' (fst a) :: fst b, snd b)
          | TEnd sp' nm' =>
              if str_eqb nm nm' then if str_eqb sp sp' then Some ([], ts) else None
              else if st then None else Some ([], t :: ts)
          | TChar s => b <- inside fuel st lv sp nm ts ;; Some (Text s :: fst b, snd b)
          | _ =>
              if leaf then Some ([], t :: ts)
              else b <- inside fuel st lv sp nm ts ;; Some (Misc :: fst b, snd b)
          end
      end
  end.

Lemma inside_le st lv : forall n sp nm raw r,
  inside n st lv sp nm raw = Some r -> length (snd r) <= length raw.
Proof.
  induction n as [|n IH]; intros sp nm raw r H; [discriminate|].
  cbn [inside] in H. destruct raw as [|t ts]; [discriminate|].
  assert (Hb : forall n0, (b <- inside n st lv sp nm ts ;; Some (n0 :: fst b, snd b)) = Some r ->
                 length (snd r) <= length (t :: ts)).
  { intros n0 Hn. destruct (inside n st lv sp nm ts) as [b|] eqn:E; cbn [bind] in Hn; [|discriminate].
    injection Hn as <-. apply IH in E. cbn [snd length]. lia. }
  destruct t; try (destruct (negb st && fold_member nm lv); [injection H as <-; cbn [snd]; lia|]);
    try (eapply Hb; exact H).
  - destruct (inside n st lv space local ts) as [a|] eqn:Ea; cbn [bind] in H; [|discriminate].
    destruct (inside n st lv sp nm (snd a)) as [b|] eqn:Eb; cbn [bind] in H; [|discriminate].
    injection H as <-. apply IH in Ea, Eb. cbn [snd length]. lia.
  - destruct (str_eqb nm local); [destruct (str_eqb sp space)|destruct st]; try discriminate;
      injection H as <-; cbn [snd length]; lia.
Qed.

Lemma inside_fuel st lv : forall n m sp nm raw,
  length raw < n -> length raw < m -> inside n st lv sp nm raw = inside m st lv sp nm raw.
Proof.
  induction n as [|n IH]; intros m sp nm raw Hn Hm; [lia|].
  destruct m as [|m]; [lia|]. cbn [inside].
  destruct raw as [|t ts]; [reflexivity|]. cbn [length] in Hn, Hm.
  destruct t; rewrite ?(IH m) by lia; try reflexivity.
  destruct (negb st && fold_member nm lv); [reflexivity|].
  destruct (inside m st lv space local ts) as [a|] eqn:Ea; cbn [bind]; [|reflexivity].
  apply inside_le in Ea. rewrite (IH m) by lia. reflexivity.
Qed.

Definition within (st : bool) (lv : list str) (sp nm : str) (raw : list Xml.token) :=
  inside (S (length raw)) st lv sp nm raw.

Lemma within_inside st lv n sp nm raw :
  length raw < n -> inside n st lv sp nm raw = within st lv sp nm raw.
Proof. intros H. apply inside_fuel; lia. Qed.

Lemma within_le st lv sp nm raw r :
  within st lv sp nm raw = Some r -> length (snd r) <= length raw.
Proof. apply inside_le. Qed.

(** The equation of [within]. *)
Lemma within_cons st lv sp nm t ts :
  within st lv sp nm (t :: ts) =
  let leaf := negb st && fold_member nm lv in
  match t with
  | TStart sp' nm' =>
      if leaf then Some ([], t :: ts)
      else
        a <- within st lv sp' nm' ts ;;
        b <- within st lv sp nm (snd a) ;;
        Some (Elem nm' (fst a) :: fst b, snd b)
  | TEnd sp' nm' =>
      if str_eqb nm nm' then if str_eqb sp sp' then Some ([], ts) else None
      else if st then None else Some ([], t :: ts)
  | TChar s => b <- within st lv sp nm ts ;; Some (Text s :: fst b, snd b)
  | _ =>
      if leaf then Some ([], t :: ts)
      else b <- within st lv sp nm ts ;; Some (Misc :: fst b, snd b)
  end.
Proof.
  unfold within at 1. cbn [inside]. cbv zeta.
  assert (Hw : forall sp nm raw, length raw <= length ts ->
             inside (length (t :: ts)) st lv sp nm raw = within st lv sp nm raw)
    by (intros; apply within_inside; cbn [length]; lia).
  destruct t; try rewrite Hw by lia; try reflexivity.
  destruct (negb st && fold_member nm lv); [reflexivity|].
  destruct (within st lv space local ts) as [a|] eqn:Ea; cbn [bind]; [|reflexivity].
  apply within_le in Ea. now rewrite Hw.
Qed.

(** What [Stream.token] gives inside an element, and what it means for the
    content. *)
Lemma token_within st lv sp nm below raw :
  match token (mkDec st lv raw (EStart sp nm :: below)) with
  | None => within st lv sp nm raw = None
  | Some (XStart nm', d) =>
      exists sp' raw', d = mkDec st lv raw' (EStart sp' nm' :: EStart sp nm :: below)
        /\ length raw' < length raw
        /\ within st lv sp nm raw =
             (a <- within st lv sp' nm' raw' ;; b <- within st lv sp nm (snd a) ;;
              Some (Elem nm' (fst a) :: fst b, snd b))
  | Some (XEnd nm', d) =>
      nm' = nm /\ exists raw', d = mkDec st lv raw' below /\ length raw' <= length raw
        /\ within st lv sp nm raw = Some ([], raw')
  | Some (XChar s, d) =>
      exists raw', d = mkDec st lv raw' (EStart sp nm :: below) /\ length raw' < length raw
        /\ within st lv sp nm raw = (b <- within st lv sp nm raw' ;; Some (Text s :: fst b, snd b))
  | Some (XOther, d) =>
      exists raw', d = mkDec st lv raw' (EStart sp nm :: below) /\ length raw' < length raw
        /\ within st lv sp nm raw = (b <- within st lv sp nm raw' ;; Some (Misc :: fst b, snd b))
  end.
Proof.
  destruct raw as [|t ts]; [reflexivity|].
  unfold token. cbn [dc_strict dc_leaves dc_raw dc_stk].
  rewrite within_cons. cbv zeta.
  destruct t;
    try (destruct (negb st && fold_member nm lv);
         [split; [reflexivity|]; eexists; repeat split; cbn [length]; lia|]);
    try (eexists; repeat split; cbn [length]; lia).
  - exists space, ts. repeat split; cbn [length]; lia.
  - destruct (str_eqb nm local); [destruct (str_eqb sp space)|destruct st]; try reflexivity;
      (split; [reflexivity|]; eexists; repeat split; cbn [length]; lia).
Qed.

(** ** The loops *)

Lemma skip_within st lv : forall n sp nm below raw,
  length raw < n ->
  skip n (mkDec st lv raw (EStart sp nm :: below)) =
  option_map (fun r => mkDec st lv (snd r) below) (within st lv sp nm raw).
Proof.
  induction n as [|n IH]; intros sp nm below raw Hn; [lia|]. cbn [skip].
  pose proof (token_within st lv sp nm below raw) as H.
  destruct (token _) as [[[nm'|nm'|s|] d]|]; cbn [bind fst snd].
  - destruct H as (sp' & raw' & -> & Hl & ->). rewrite IH by lia.
    destruct (within st lv sp' nm' raw') as [a|] eqn:Ea; cbn [option_map bind]; [|reflexivity].
    apply within_le in Ea. rewrite IH by lia.
    destruct (within st lv sp nm (snd a)) as [b|]; reflexivity.
  - destruct H as (-> & raw' & -> & Hl & ->). reflexivity.
  - destruct H as (raw' & -> & Hl & ->). rewrite IH by lia.
    destruct (within st lv sp nm raw') as [b|]; reflexivity.
  - destruct H as (raw' & -> & Hl & ->). rewrite IH by lia.
    destruct (within st lv sp nm raw') as [b|]; reflexivity.
  - rewrite H. reflexivity.
Qed.

Lemma chars_within st lv : forall n sp nm below raw data,
  length raw < n ->
  read_chars n data (mkDec st lv raw (EStart sp nm :: below)) =
  option_map (fun r => (data ++ text_of (fst r), mkDec st lv (snd r) below)) (within st lv sp nm raw).
Proof.
  induction n as [|n IH]; intros sp nm below raw data Hn; [lia|]. cbn [read_chars].
  pose proof (token_within st lv sp nm below raw) as H.
  destruct (token _) as [[[nm'|nm'|s|] d]|]; cbn [bind fst snd].
  - destruct H as (sp' & raw' & -> & Hl & ->). rewrite skip_within by lia.
    destruct (within st lv sp' nm' raw') as [a|] eqn:Ea; cbn [option_map bind]; [|reflexivity].
    apply within_le in Ea. rewrite IH by lia.
    destruct (within st lv sp nm (snd a)) as [b|]; reflexivity.
  - destruct H as (-> & raw' & -> & Hl & ->). cbn [option_map fst snd text_of]. now rewrite app_nil_r.
  - destruct H as (raw' & -> & Hl & ->). rewrite IH by lia.
    destruct (within st lv sp nm raw') as [b|]; cbn [option_map bind fst snd text_of]; [|reflexivity].
    now rewrite <- app_assoc.
  - destruct H as (raw' & -> & Hl & ->). rewrite IH by lia.
    destruct (within st lv sp nm raw') as [b|]; reflexivity.
  - rewrite H. reflexivity.
Qed.

(** The content without blank text. *)
Definition solids (r : option (list node * list Xml.token)) : option (list node * list Xml.token) :=
  option_map (fun r => (solid (fst r), snd r)) r.

Lemma solid_within st lv : forall n sp nm below raw,
  length raw < n ->
  match next_solid n (mkDec st lv raw (EStart sp nm :: below)) with
  | None => within st lv sp nm raw = None
  | Some (XStart nm', d) =>
      exists sp' raw', d = mkDec st lv raw' (EStart sp' nm' :: EStart sp nm :: below)
        /\ length raw' < length raw
        /\ solids (within st lv sp nm raw) =
             (a <- within st lv sp' nm' raw' ;; b <- solids (within st lv sp nm (snd a)) ;;
              Some (Elem nm' (fst a) :: fst b, snd b))
  | Some (XEnd nm', d) =>
      nm' = nm /\ exists raw', d = mkDec st lv raw' below /\ length raw' <= length raw
        /\ solids (within st lv sp nm raw) = Some ([], raw')
  | Some (XChar s, d) =>
      blank s = false
        /\ exists rest, solids (within st lv sp nm raw) = (b <- rest ;; Some (Text s :: fst b, snd b))
  | Some (XOther, d) =>
      exists rest, solids (within st lv sp nm raw) = (b <- rest ;; Some (Misc :: fst b, snd b))
  end.
Proof.
  induction n as [|n IH]; intros sp nm below raw Hn; [lia|]. cbn [next_solid].
  pose proof (token_within st lv sp nm below raw) as H.
  destruct (token _) as [[[nm'|nm'|s|] d]|]; cbn [bind fst snd].
  - destruct H as (sp' & raw' & -> & Hl & ->). exists sp', raw'. repeat split; [exact Hl|].
    destruct (within st lv sp' nm' raw') as [a|]; cbn [solids option_map bind]; [|reflexivity].
    destruct (within st lv sp nm (snd a)) as [b|]; reflexivity.
  - destruct H as (-> & raw' & -> & Hl & ->). split; [reflexivity|]. exists raw'. repeat split; exact Hl.
  - destruct H as (raw' & -> & Hl & Hw). destruct (blank s) eqn:Eb.
    + specialize (IH sp nm below raw'). 
      assert (Hs : solids (within st lv sp nm raw) = solids (within st lv sp nm raw')).
      { rewrite Hw. destruct (within st lv sp nm raw') as [b|]; cbn [solids option_map bind fst snd solid filter]; [|reflexivity].
        now rewrite Eb. }
      rewrite Hs.
      destruct (next_solid n _) as [[[nm'|nm'|s'|] d]|].
      * destruct IH as (sp' & raw2 & E1 & E2 & E3); [lia|]. exists sp', raw2. repeat split; [exact E1|lia|exact E3].
      * destruct IH as (E0 & raw2 & E1 & E2 & E3); [lia|]. split; [exact E0|]. exists raw2.
        repeat split; [exact E1|lia|exact E3].
      * apply IH; lia.
      * apply IH; lia.
      * rewrite Hw, IH by lia. reflexivity.
    + split; [exact Eb|]. exists (solids (within st lv sp nm raw')). rewrite Hw.
      destruct (within st lv sp nm raw') as [b|]; cbn [solids option_map bind fst snd solid filter]; [|reflexivity].
      now rewrite Eb.
  - destruct H as (raw' & -> & Hl & Hw). exists (solids (within st lv sp nm raw')). rewrite Hw.
    destruct (within st lv sp nm raw') as [b|]; reflexivity.
  - exact H.
Qed.

(** One round of a hand-written loop, on the tree. *)
Definition round {A} (h : str -> list node -> A -> option A) (n : node) (v : A) : option A :=
  match n with
  | Text s => if blank s then Some v else None
  | Misc => None
  | Elem nm k => h nm k v
  end.

Lemma run_solid {A} (h : str -> list node -> A -> option A) kids : forall v,
  run_all (map (round h) (solid kids)) v = run_all (map (round h) kids) v.
Proof.
  induction kids as [|n kids IH]; intros v; [reflexivity|].
  destruct n as [nm k|s|]; cbn [solid filter map run_all round bind]; try reflexivity.
  - destruct (h nm k v) as [v'|]; cbn [bind]; [apply IH|reflexivity].
  - destruct (blank s) eqn:E; cbn [negb bind].
    + apply IH.
    + cbn [map run_all round]. now rewrite E.
Qed.

(** The solid content, then the rest of what the loop does. *)
Definition looped {A} (st : bool) (lv : list str) (below : list entry)
  (h : str -> list node -> A -> option A) (v : A) (r : option (list node * list Xml.token)) :
  option (A * dec) :=
  x <- r ;;
  option_map (fun v' => (v', mkDec st lv (snd x) below)) (run_all (map (round h) (fst x)) v).

Lemma looped_solids {A} st lv below (h : str -> list node -> A -> option A) v r :
  looped st lv below h v (solids r) = looped st lv below h v r.
Proof. destruct r as [x|]; [|reflexivity]. cbn [looped solids option_map bind fst snd]. now rewrite run_solid. Qed.

Lemma loop_within {A} st lv (element : str -> A -> dec -> option (A * dec))
  (h : str -> list node -> A -> option A) : forall n sp nm below raw v,
  length raw < n ->
  (forall sp' nm' raw' v, length raw' < length raw ->
     element nm' v (mkDec st lv raw' (EStart sp' nm' :: EStart sp nm :: below)) =
     (r <- within st lv sp' nm' raw' ;;
      option_map (fun v' => (v', mkDec st lv (snd r) (EStart sp nm :: below))) (h nm' (fst r) v))) ->
  method_loop n nm element v (mkDec st lv raw (EStart sp nm :: below)) =
  looped st lv below h v (within st lv sp nm raw).
Proof.
  induction n as [|n IH]; intros sp nm below raw v Hn Hel; [lia|].
  cbn [method_loop]. rewrite <- looped_solids.
  pose proof (solid_within st lv (S n) sp nm below raw Hn) as H.
  destruct (next_solid (S n) _) as [[[nm'|nm'|s|] d]|]; cbn [bind fst snd].
  - destruct H as (sp' & raw' & -> & Hl & ->). rewrite Hel by exact Hl.
    destruct (within st lv sp' nm' raw') as [a|] eqn:Ea; cbn [bind looped]; [|reflexivity].
    apply within_le in Ea.
    destruct (h nm' (fst a) v) as [v'|] eqn:Eh; cbn [option_map bind fst snd].
    + rewrite IH; [|lia|intros; apply Hel; lia].
      rewrite <- looped_solids. unfold looped.
      destruct (solids (within st lv sp nm (snd a))) as [b|]; cbn [bind fst snd map run_all round]; [|reflexivity].
      now rewrite Eh.
    + unfold looped. destruct (solids (within st lv sp nm (snd a))) as [b|]; cbn [bind fst snd map run_all round]; [|reflexivity].
      now rewrite Eh.
  - destruct H as (-> & raw' & -> & Hl & ->). rewrite str_eqb_refl. reflexivity.
  - destruct H as (Eb & rest & ->). unfold looped. destruct rest as [b|]; cbn [bind fst snd map run_all round]; [|reflexivity].
    now rewrite Eb.
  - destruct H as (rest & ->). unfold looped. destruct rest as [b|]; reflexivity.
  - rewrite H. reflexivity.
Qed.

(** ** Values *)

(** A reader that first needs the content, [X], then computes with it and goes on
    behind it. *)
Definition then_ {A} (st : bool) (lv : list str) (below : list entry)
  (X : option (list node * list Xml.token)) (f : list node -> option A) : option (A * dec) :=
  x <- X ;; option_map (fun v => (v, mkDec st lv (snd x) below)) (f (fst x)).

Lemma then_map {A B} st lv below X (f : list node -> option A) (g : A -> B) :
  option_map (fun r => (g (fst r), snd r)) (then_ st lv below X f) =
  then_ st lv below X (fun k => option_map g (f k)).
Proof.
  unfold then_. destruct X as [x|]; [|reflexivity]. cbn [bind].
  destruct (f (fst x)); reflexivity.
Qed.

Lemma interface_then {A} st lv sp nm below raw (m : dec -> option (A * dec)) X f :
  m (mkDec st lv raw (EStart sp nm :: EEof :: below)) = then_ st lv (EEof :: below) X f ->
  interface m (mkDec st lv raw (EStart sp nm :: below)) = then_ st lv below X f.
Proof.
  intros H. unfold interface, push_eof. cbn [dc_stk dc_strict dc_leaves dc_raw]. rewrite H.
  unfold then_. destruct X as [x|]; [|reflexivity]. cbn [bind].
  destruct (f (fst x)); reflexivity.
Qed.

Lemma find_field_none fs : forall parents nm (k : streamer) v,
  (forall t old, k t old = None) ->
  match find_field fs parents nm k v with Hit (Some _) => False | _ => True end.
Proof.
  induction fs as [|ps n om t fs IH]; intros parents nm k v Hk; [exact I|]. cbn [find_field].
  assert (Hn : match found_map (fun r : interp_flds fs * dec => ((fst v, fst r), snd r)) (find_field fs parents nm k (snd v)) with
               | Hit (Some _) => False | _ => True end).
  { specialize (IH parents nm k (snd v) Hk).
    destruct (find_field fs parents nm k (snd v)) as [| |[r|]]; exact IH. }
  destruct (strip_prefix parents ps) as [[|p rest]|]; [| |exact Hn].
  - destruct (str_eqb n nm); [rewrite Hk; exact I|exact Hn].
  - destruct (str_eqb p nm); [exact I|exact Hn].
Qed.

Lemma find_field_some fs : forall parents nm (k : streamer) (k' : decoder) d v,
  (forall t old, k t old = option_map (fun x => (x, d)) (k' t old)) ->
  find_field fs parents nm k v = found_map (fun x => (x, d)) (match_fields fs parents nm k' v).
Proof.
  induction fs as [|ps n om t fs IH]; intros parents nm k k' d v Hk; [reflexivity|].
  cbn [find_field match_fields].
  assert (Hn : found_map (fun r : interp_flds fs * dec => ((fst v, fst r), snd r)) (find_field fs parents nm k (snd v)) =
               found_map (fun x => (x, d)) (found_map (pair (fst v)) (match_fields fs parents nm k' (snd v)))).
  { rewrite (IH parents nm k k' d (snd v) Hk).
    destruct (match_fields fs parents nm k' (snd v)) as [| |[r|]]; reflexivity. }
  destruct (strip_prefix parents ps) as [[|p rest]|]; [| |exact Hn].
  - destruct (str_eqb n nm); [|exact Hn]. rewrite Hk. destruct (k' t (fst v)); reflexivity.
  - destruct (str_eqb p nm); [reflexivity|exact Hn].
Qed.

Lemma switch_custom_then fs : forall nm st lv below X (k : streamer) (k' : list node -> decoder) v,
  (forall t old, k t old = then_ st lv below X (fun kids => k' kids t old)) ->
  switch_custom fs nm k v = then_ st lv below X (fun kids => match_custom fs nm (k' kids) v).
Proof.
  induction fs as [|ps n om t fs IH]; intros nm st lv below X k k' v Hk.
  - destruct X; reflexivity.
  - cbn [switch_custom match_custom].
    destruct (match t with TAlts a => has_alt a nm | _ => str_eqb n nm end).
    + rewrite Hk, (then_map st lv below X _ (fun x => (x, snd v))). reflexivity.
    + rewrite (IH nm st lv below X k k' (snd v) Hk), (then_map st lv below X _ (pair (fst v))). reflexivity.
Qed.

Lemma switch_alts_then a : forall nm st lv below X (k : streamer) (k' : list node -> decoder),
  (forall t old, k t old = then_ st lv below X (fun kids => k' kids t old)) ->
  switch_alts a nm k = then_ st lv below X (fun kids => match_alts a nm (k' kids)).
Proof.
  induction a as [|rd wr t a IH]; intros nm st lv below X k k' Hk.
  - destruct X; reflexivity.
  - cbn [switch_alts match_alts]. destruct (str_eqb rd nm).
    + rewrite Hk, (then_map st lv below X _ inl). reflexivity.
    + rewrite (IH nm st lv below X k k' Hk), (then_map st lv below X _ inr). reflexivity.
Qed.

Definition decs (e : env) (kids : list node) : list (node * decoders) := map (fun k => (k, decode e k)) kids.

Definition value_right (e : env) (n : nat) : Prop :=
  forall t st lv sp nm below raw old, 2 * length raw + 2 <= n ->
  s_value e n t nm old (mkDec st lv raw (EStart sp nm :: below)) =
  then_ st lv below (within st lv sp nm raw) (fun kids => d_value (decode e (Elem nm kids)) t old).

Definition fields_right (e : env) (n : nat) : Prop :=
  forall fs st lv sp nm below raw parents v, 2 * length raw + 1 <= n ->
  s_fields e n fs parents v (mkDec st lv raw (EStart sp nm :: below)) =
  then_ st lv below (within st lv sp nm raw)
    (fun kids => run_all (map (fun d => d_walk (snd d) fs parents) (decs e kids)) v).

Lemma fields_step e n : value_right e n -> fields_right e n -> fields_right e (S n).
Proof.
  intros HV HF fs st lv sp nm below raw parents v Hn. cbn [s_fields].
  pose proof (token_within st lv sp nm below raw) as H.
  destruct (token _) as [[[nm'|nm'|s|] d]|]; cbn [bind fst snd].
  - destruct H as (sp' & raw' & -> & Hl & ->).
    assert (Hk : forall t old,
              s_value e n t nm' old (mkDec st lv raw' (EStart sp' nm' :: EStart sp nm :: below)) =
              then_ st lv (EStart sp nm :: below) (within st lv sp' nm' raw')
                (fun kids => d_value (decode e (Elem nm' kids)) t old))
      by (intros; apply HV; lia).
    rewrite skip_within by lia. rewrite HF by lia.
    destruct (within st lv sp' nm' raw') as [a|] eqn:Ea; cbn [option_map bind then_] in *.
    + apply within_le in Ea.
      rewrite (find_field_some fs parents nm' _ (d_value (decode e (Elem nm' (fst a))))
                 (mkDec st lv (snd a) (EStart sp nm :: below)) v) by exact Hk.
      assert (Hwalk : forall w,
                run_all (map (fun d => d_walk (snd d) fs parents) (decs e (Elem nm' (fst a) :: w))) v =
                (v' <- match match_fields fs parents nm' (d_value (decode e (Elem nm' (fst a)))) v with
                       | NoMatch => Some v
                       | Hit r => r
                       | Prefix => run_all (map (fun d => d_walk (snd d) fs (parents ++ [nm'])) (decs e (fst a))) v
                       end ;;
                 run_all (map (fun d => d_walk (snd d) fs parents) (decs e w)) v')) by reflexivity.
      assert (Hrest : forall v', s_fields e n fs parents v' (mkDec st lv (snd a) (EStart sp nm :: below)) =
                then_ st lv below (within st lv sp nm (snd a))
                  (fun kids => run_all (map (fun d => d_walk (snd d) fs parents) (decs e kids)) v'))
        by (intros; apply HF; lia).
      assert (Hgo : forall (o : option (interp_flds fs)),
                (x <- option_map (fun x => (x, mkDec st lv (snd a) (EStart sp nm :: below))) o ;;
                 s_fields e n fs parents (fst x) (snd x)) =
                (x <- (b <- within st lv sp nm (snd a) ;; Some (Elem nm' (fst a) :: fst b, snd b)) ;;
                 option_map (fun w => (w, mkDec st lv (snd x) below))
                   (v' <- o ;; run_all (map (fun d => d_walk (snd d) fs parents) (decs e (tl (fst x)))) v'))).
      { intros [v'|]; cbn [option_map bind fst snd].
        - rewrite Hrest. unfold then_. destruct (within st lv sp nm (snd a)) as [b|]; reflexivity.
        - destruct (within st lv sp nm (snd a)) as [b|]; reflexivity. }
      transitivity (x <- (b <- within st lv sp nm (snd a) ;; Some (Elem nm' (fst a) :: fst b, snd b)) ;;
                 option_map (fun w => (w, mkDec st lv (snd x) below))
                   (v' <- match match_fields fs parents nm' (d_value (decode e (Elem nm' (fst a)))) v with
                       | NoMatch => Some v
                       | Hit r => r
                       | Prefix => run_all (map (fun d => d_walk (snd d) fs (parents ++ [nm'])) (decs e (fst a))) v
                       end ;; run_all (map (fun d => d_walk (snd d) fs parents) (decs e (tl (fst x)))) v')).
      * rewrite <- Hgo.
        destruct (match_fields fs parents nm' (d_value (decode e (Elem nm' (fst a)))) v) as [| |o];
          cbn [found_map]; reflexivity.
      * unfold then_. destruct (within st lv sp nm (snd a)) as [b|]; cbn [bind fst snd tl]; [|reflexivity].
        rewrite Hwalk. reflexivity.
    + pose proof (find_field_none fs parents nm'
                    (fun t old => s_value e n t nm' old (mkDec st lv raw' (EStart sp' nm' :: EStart sp nm :: below))) v Hk) as Hf.
      destruct (find_field _ _ _ _ _) as [| |[r|]]; try reflexivity. destruct Hf.
  - destruct H as (-> & raw' & -> & Hl & ->). reflexivity.
  - destruct H as (raw' & -> & Hl & ->). rewrite HF by lia.
    unfold then_. destruct (within st lv sp nm raw') as [b|]; reflexivity.
  - destruct H as (raw' & -> & Hl & ->). rewrite HF by lia.
    unfold then_. destruct (within st lv sp nm raw') as [b|]; reflexivity.
  - rewrite H. reflexivity.
Qed.

Lemma solid_decs e kids :
  filter (fun d : node * decoders => match fst d with Text s => negb (blank s) | _ => true end)
    (map (fun k => (k, decode e k)) kids) = map (fun k => (k, decode e k)) (solid kids).
Proof.
  induction kids as [|k kids IH]; [reflexivity|].
  cbn [map filter fst]. rewrite IH.
  destruct k as [a b|s|]; [reflexivity| |reflexivity].
  change (solid (Text s :: kids)) with (if negb (blank s) then Text s :: solid kids else solid kids).
  destruct (negb (blank s)); reflexivity.
Qed.

Definition named (fs : flds) : ty := TStruct [] (FCons [] (bs "Name") false (TLeaf LString) fs).
Definition only_set (e : env) (fs : flds) (l : list node) : option (str * interp_flds fs) :=
  match l with
  | [Elem vname k] =>
      option_map (fun r : str * interp_flds fs => (vname, snd r))
        (d_value (decode e (Elem vname k)) (named fs) ([], zero_flds fs))
  | _ => None
  end.

Lemma msgset_only e fs nm kids : d_msgset (decode e (Elem nm kids)) fs = only_set e fs (solid kids).
Proof.
  change (d_msgset (decode e (Elem nm kids)) fs) with
    (match filter (fun d : node * decoders => match fst d with Text s => negb (blank s) | _ => true end)
             (map (fun k => (k, decode e k)) kids) with
     | [(Elem vname _, d)] =>
         option_map (fun r : str * interp_flds fs => (vname, snd r)) (d_value d (named fs) ([], zero_flds fs))
     | _ => None
     end).
  rewrite solid_decs. destruct (solid kids) as [|[a b|s|] [|y l]]; reflexivity.
Qed.

(** MessageSetList.UnmarshalXML's handling of one set. *)
Lemma msgset_round e n fs st lv sp nm below raw (v : list (str * interp_flds fs)) :
  value_right e n -> 2 * length raw + 2 <= n ->
  (r <- next_solid n (mkDec st lv raw (EStart sp nm :: below)) ;;
   match fst r with
   | XStart vname =>
       x <- s_value e n (TStruct [] (FCons [] (bs "Name") false (TLeaf LString) fs)) vname ([], zero_flds fs) (snd r) ;;
       y <- next_solid n (snd x) ;;
       match fst y with
       | XEnd _ => Some (v ++ [(vname, snd (fst x))], snd y)
       | _ => None
       end
   | _ => None
   end) =
  then_ st lv below (within st lv sp nm raw)
    (fun kids => option_map (fun x => v ++ [x]) (d_msgset (decode e (Elem nm kids)) fs)).
Proof.
  intros HV Hn.
  fold (named fs).
  transitivity (then_ st lv below (solids (within st lv sp nm raw))
                  (fun kids => option_map (fun x => v ++ [x]) (only_set e fs kids))).
  2:{ unfold then_, solids. destruct (within st lv sp nm raw) as [x|]; [|reflexivity].
      cbn [option_map bind fst snd]. rewrite msgset_only. reflexivity. }
  pose proof (solid_within st lv n sp nm below raw ltac:(lia)) as H.
  destruct (next_solid n _) as [[[nm'|nm'|s|] d]|]; cbn [bind fst snd].
  - destruct H as (sp' & raw' & -> & Hl & ->). rewrite HV by lia.
    destruct (within st lv sp' nm' raw') as [a|] eqn:Ea; cbn [bind then_]; [|reflexivity].
    apply within_le in Ea.
    pose proof (solid_within st lv n sp nm below (snd a) ltac:(lia)) as H2.
    destruct (d_value (decode e (Elem nm' (fst a))) (named fs) ([], zero_flds fs)) as [r|] eqn:Er; cbn [option_map bind fst snd].
    + destruct (next_solid n _) as [[[nm2|nm2|s|] d]|]; cbn [bind fst snd].
      * destruct H2 as (sp2 & raw2 & -> & Hl2 & ->). unfold then_.
        destruct (within st lv sp2 nm2 raw2) as [c|]; cbn [bind]; [|reflexivity].
        destruct (solids (within st lv sp nm (snd c))) as [b|]; reflexivity.
      * destruct H2 as (-> & raw2 & -> & Hl2 & ->). unfold then_. cbn [bind fst snd only_set].
        rewrite Er. reflexivity.
      * destruct H2 as (Eb & rest & ->). unfold then_. destruct rest as [b|]; reflexivity.
      * destruct H2 as (rest & ->). unfold then_. destruct rest as [b|]; reflexivity.
      * rewrite H2. reflexivity.
    + unfold then_. destruct (solids (within st lv sp nm (snd a))) as [[[|y l] c]|]; cbn [bind fst snd only_set]; try reflexivity.
      rewrite Er. reflexivity.
  - destruct H as (-> & raw' & -> & Hl & ->). reflexivity.
  - destruct H as (Eb & rest & ->). unfold then_. destruct rest as [b|]; reflexivity.
  - destruct H as (rest & ->). unfold then_. destruct rest as [b|]; reflexivity.
  - rewrite H. reflexivity.
Qed.

Lemma looped_then {A} st lv below (h : str -> list node -> A -> option A) v X :
  looped st lv below h v X = then_ st lv below X (fun kids => run_all (map (round h) kids) v).
Proof. reflexivity. Qed.

Lemma then_ext {A} st lv below X (f g : list node -> option A) :
  (forall k, f k = g k) -> then_ st lv below X f = then_ st lv below X g.
Proof. intros H. unfold then_. destruct X as [x|]; [|reflexivity]. cbn [bind]. now rewrite H. Qed.

Lemma run_map_ext {A B} (f g : A -> B -> option B) l :
  (forall x v, f x v = g x v) -> forall v, run_all (map f l) v = run_all (map g l) v.
Proof.
  intros H. induction l as [|x l IH]; intros v; [reflexivity|]. cbn [map run_all]. rewrite H.
  destruct (g x v); [apply IH|reflexivity].
Qed.

Lemma rounds {A} e (F : str -> decoders -> A -> option A) kids : forall v,
  run_all (map (fun d => token_step (fst d) (fun nm v => F nm (snd d) v)) (decs e kids)) v =
  run_all (map (round (fun nm k v => F nm (decode e (Elem nm k)) v)) kids) v.
Proof.
  intros v. unfold decs. rewrite map_map. apply run_map_ext.
  intros [nm k|s|] w; reflexivity.
Qed.

Lemma value_step e n : value_right e n -> fields_right e n -> value_right e (S n).
Proof.
  intros HV HF t st lv sp nm below raw old Hn. cbn [s_value].
  change (fun kids => d_value (decode e (Elem nm kids)) t old)
    with (fun kids => value_decoder e nm kids (decs e kids) t old).
  assert (Hloop : forall A (element : str -> A -> dec -> option (A * dec)) (h : str -> list node -> A -> option A) below v,
    (forall sp' nm' raw' v, length raw' < length raw ->
       element nm' v (mkDec st lv raw' (EStart sp' nm' :: EStart sp nm :: below)) =
       then_ st lv (EStart sp nm :: below) (within st lv sp' nm' raw') (fun k => h nm' k v)) ->
    method_loop n nm element v (mkDec st lv raw (EStart sp nm :: below)) =
    then_ st lv below (within st lv sp nm raw) (fun kids => run_all (map (round h) kids) v)).
  { intros A element h below' v Hel. rewrite <- looped_then. apply loop_within; [lia|exact Hel]. }
  revert old.
  pose (PA := fun a : alts =>
      (fix go_alts (a : alts) : option (interp_alts a * dec) :=
              match a return option (interp_alts a * dec) with
              | ANil => None
              | ACons rd _ t a' =>
                  if str_eqb rd nm then option_map (fun r => (inl (fst r), snd r))
                    (value_streamer e n (s_value e n) (s_fields e n) nm (mkDec st lv raw (EStart sp nm :: below)) t (zero t))
                  else option_map (fun r => (inr (fst r), snd r)) (go_alts a')
              end) a =
      then_ st lv below (within st lv sp nm raw) (fun kids =>
          (fix go_alts (a : alts) : option (interp_alts a) :=
              match a return option (interp_alts a) with
              | ANil => None
              | ACons rd _ t a' =>
                  if str_eqb rd nm then option_map inl (value_decoder e nm kids (decs e kids) t (zero t))
                  else option_map inr (go_alts a')
              end) a)).
  revert t.
  apply (ty_mind
    (fun t => forall old,
       value_streamer e n (s_value e n) (s_fields e n) nm (mkDec st lv raw (EStart sp nm :: below)) t old =
       then_ st lv below (within st lv sp nm raw) (fun kids => value_decoder e nm kids (decs e kids) t old))
    (fun _ => True) PA);
    [intros l old|intros x fs _ old|intros t go old|intros t go old|intros x fs _ old|intros a Ha old
    |intros x a _ old|intros fs _ old|exact I|intros; exact I| |intros rd wr t go a' goa].
  - cbn [value_streamer value_decoder].
    apply (interface_then st lv sp nm below raw _ (within st lv sp nm raw) (fun kids => leaf_unmarshal e l (text_of kids))).
    rewrite chars_within by lia. unfold then_.
    destruct (within st lv sp nm raw) as [r|]; cbn [option_map bind fst snd app]; [|reflexivity].
    destruct (leaf_unmarshal e l (text_of (fst r))); reflexivity.
  - cbn [value_streamer value_decoder]. destruct (negb (null x) && negb (str_eqb x nm)).
    + unfold then_. destruct (within st lv sp nm raw); reflexivity.
    + rewrite HF by lia. reflexivity.
  - change (option_map (fun r => (Some (fst r), snd r))
              (value_streamer e n (s_value e n) (s_fields e n) nm (mkDec st lv raw (EStart sp nm :: below)) t
                 (match old with Some v => v | None => zero t end)) =
            then_ st lv below (within st lv sp nm raw)
              (fun kids => option_map Some (value_decoder e nm kids (decs e kids) t (match old with Some v => v | None => zero t end)))).
    rewrite go. apply then_map.
  - change (option_map (fun r => (old ++ [fst r], snd r))
              (value_streamer e n (s_value e n) (s_fields e n) nm (mkDec st lv raw (EStart sp nm :: below)) t (zero t)) =
            then_ st lv below (within st lv sp nm raw)
              (fun kids => option_map (fun v => old ++ [v]) (value_decoder e nm kids (decs e kids) t (zero t)))).
    rewrite go. apply (then_map st lv below _ _ (fun v => old ++ [v])).
  - cbn [value_streamer value_decoder].
    rewrite (then_ext st lv below _ _ _ (fun kids => rounds e (fun nm d v => match_custom fs nm (d_value d) v) kids old)).
    apply interface_then. apply Hloop. intros sp' nm' raw' v Hl.
    apply (switch_custom_then fs nm' st lv _ _ _ (fun kids => d_value (decode e (Elem nm' kids)))).
    intros t old'. apply HV. lia.
  - cbn [value_streamer value_decoder].
    etransitivity; [|apply (then_map st lv below _ _ (fun v => old ++ [v]))].
    etransitivity; [|apply f_equal; exact Ha]. reflexivity.
  - cbn [value_streamer value_decoder].
    rewrite (then_ext st lv below _ _ _
               (fun kids => rounds e (fun nm d v => option_map (fun x => v ++ [x]) (match_alts a nm (d_value d))) kids old)).
    apply interface_then. apply Hloop. intros sp' nm' raw' v Hl.
    rewrite (switch_alts_then a nm' st lv (EStart sp nm :: EEof :: below) (within st lv sp' nm' raw') _
               (fun kids => d_value (decode e (Elem nm' kids)))) by (intros; apply HV; lia).
    apply (then_map st lv _ _ _ (fun x => v ++ [x])).
  - cbn [value_streamer value_decoder].
    rewrite (then_ext st lv below _ _ _
               (fun kids => rounds e (fun nm d v => option_map (fun x => v ++ [x]) (d_msgset d fs)) kids old)).
    apply interface_then. apply Hloop. intros sp' nm' raw' v Hl.
    apply msgset_round; [exact HV|lia].
  - unfold PA, then_. destruct (within st lv sp nm raw); reflexivity.
  - unfold PA in *. destruct (str_eqb rd nm).
    + rewrite go. apply then_map.
    + rewrite goa. apply then_map.
Qed.

Lemma all_right e n : value_right e n /\ fields_right e n.
Proof.
  induction n as [|n [IHv IHf]].
  - split; intro; intros; lia.
  - split; [now apply value_step|now apply fields_step].
Qed.

Lemma value_within e n t st lv sp nm below raw old :
  2 * length raw + 2 <= n ->
  s_value e n t nm old (mkDec st lv raw (EStart sp nm :: below)) =
  then_ st lv below (within st lv sp nm raw) (fun kids => unmarshal e t (Elem nm kids) old).
Proof. intros H. now apply (proj1 (all_right e n)). Qed.

(** ** Trees *)

(** Reading on after the innermost of the open elements has ended. *)
Definition read_on (st : bool) (lv : list str) (o : outcome) (ts : list Xml.token) : option node :=
  match o with
  | Done n => Some n
  | Going f => read_element st lv ts f
  | Fail => None
  end.

Lemma element_within st lv : forall n ts sp nm kids rest,
  length ts < n ->
  read_element st lv ts ((sp, nm, kids) :: rest) =
  (r <- within st lv sp nm ts ;; read_on st lv (close ((sp, nm, rev (fst r) ++ kids) :: rest)) (snd r)).
Proof.
  induction n as [|n IH]; intros ts sp nm kids rest Hn; [lia|].
  destruct ts as [|t ts]; [reflexivity|]. cbn [length] in Hn.
  assert (Hkid : forall k,
            read_element st lv ts ((sp, nm, k :: kids) :: rest) =
            (r <- (b <- within st lv sp nm ts ;; Some (k :: fst b, snd b)) ;;
             read_on st lv (close ((sp, nm, rev (fst r) ++ kids) :: rest)) (snd r))).
  { intros k. rewrite IH by lia. destruct (within st lv sp nm ts) as [b|]; [|reflexivity].
    cbn [bind fst snd rev]. now rewrite <- app_assoc. }
  assert (Hagain : match close ((sp, nm, kids) :: rest) with
                   | Going f' => feed (length rest) st lv t f'
                   | r => r
                   end = match close ((sp, nm, kids) :: rest) with
                   | Going f' => feed (length f') st lv t f'
                   | r => r
                   end).
  { unfold close. destruct rest as [|[[a b] c] rest]; reflexivity. }
  assert (Hre : forall o, match (match o with Done m => Done m | Going f' => feed (length f') st lv t f' | Fail => Fail end) with
                   | Done n => Some n
                   | Going f' => read_element st lv ts f'
                   | Fail => None
                   end = read_on st lv o (t :: ts)).
  { intros [m|f|]; reflexivity. }
  rewrite within_cons. cbv zeta.
  cbn [read_element length feed]. cbv zeta. rewrite Hagain.
  destruct t; try (destruct (negb st && fold_member nm lv); [exact (Hre (close ((sp, nm, kids) :: rest)))|]); try apply Hkid.
  - cbv iota beta. rewrite IH by lia.
    destruct (within st lv space local ts) as [a|] eqn:Ea; cbn [bind]; [|reflexivity].
    apply within_le in Ea. cbn [close read_on]. rewrite app_nil_r, rev_involutive. rewrite IH by lia.
    destruct (within st lv sp nm (snd a)) as [b|]; cbn [bind fst snd rev]; [|reflexivity].
    now rewrite <- app_assoc.
  - destruct (str_eqb nm local); [destruct (str_eqb sp space)|destruct st]; try reflexivity.
    + exact (Hre (close ((sp, nm, kids) :: rest))).
Qed.

Lemma document_within st lv sp nm ts :
  read_element st lv ts [(sp, nm, [])] = option_map (fun r => Elem nm (fst r)) (within st lv sp nm ts).
Proof.
  rewrite (element_within st lv (S (length ts))) by lia.
  destruct (within st lv sp nm ts) as [r|]; [|reflexivity].
  cbn [bind close read_on option_map]. now rewrite app_nil_r, rev_involutive.
Qed.

(** ** Responses *)

Lemma message_within e n set st lv sp nm below raw :
  2 * length raw + 2 <= n ->
  s_message e n set nm (mkDec st lv raw (EStart sp nm :: below)) =
  then_ st lv below (within st lv sp nm raw) (fun kids => decode_message e set (Elem nm kids)).
Proof.
  intros Hn.
  assert (Has : forall R (t : ty) (of : interp t -> R) (mk : R -> Message),
    option_map (fun r => (mk (of (fst r)), snd r))
      (s_value e n t nm (zero t) (mkDec st lv raw (EStart sp nm :: below))) =
    then_ st lv below (within st lv sp nm raw)
      (fun kids => option_map (fun v => mk (of v)) (unmarshal e t (Elem nm kids) (zero t)))).
  { intros R t of mk. rewrite value_within by exact Hn. apply (then_map st lv below _ _ (fun v => mk (of v))). }
  assert (Hno : None = then_ st lv below (within st lv sp nm raw) (fun _ => @None Message)).
  { unfold then_. destruct (within st lv sp nm raw); reflexivity. }
  unfold s_message, decode_message.
  destruct set; try exact Hno;
    repeat match goal with |- context [str_eqb nm ?x] => destruct (str_eqb nm x) end;
    try exact Hno; apply Has.
Qed.

Lemma run_messages e set kids : forall v,
  run_all (map (round (fun nm k v => option_map (fun m => v ++ [m]) (decode_message e set (Elem nm k)))) (solid kids)) v =
  option_map (app v) (decode_messages e set (solid kids)).
Proof.
  assert (Hg : forall l, Forall (fun n => match n with Text s => blank s = false | _ => True end) l -> forall v,
    run_all (map (round (fun nm k v => option_map (fun m => v ++ [m]) (decode_message e set (Elem nm k)))) l) v =
    option_map (app v) (decode_messages e set l)).
  { intros l Hl. induction Hl as [|n l Hn Hl IH]; intros v.
    - cbn [map run_all decode_messages option_map]. now rewrite app_nil_r.
    - cbn [map run_all decode_messages].
      destruct n as [nm k|s|]; cbn [round].
      + destruct (decode_message e set (Elem nm k)) as [m|]; cbn [option_map bind]; [|reflexivity].
        rewrite IH. destruct (decode_messages e set l) as [ms|]; cbn [option_map bind]; [|reflexivity].
        now rewrite <- app_assoc.
      + rewrite Hn. reflexivity.
      + reflexivity. }
  apply Hg. apply Forall_forall. intros n Hin. apply filter_In in Hin as [_ Hn].
  destruct n as [nm k|s|]; trivial. now apply negb_true_iff.
Qed.

Lemma messages_within e n set st lv sp nm below raw :
  2 * length raw + 2 <= n ->
  s_message_set e n set nm (mkDec st lv raw (EStart sp nm :: below)) =
  then_ st lv below (within st lv sp nm raw) (fun kids => decode_messages e set (solid kids)).
Proof.
  intros Hn. unfold s_message_set.
  rewrite (loop_within st lv _ (fun nm k v => option_map (fun m => v ++ [m]) (decode_message e set (Elem nm k)))).
  - rewrite <- looped_solids, looped_then. unfold then_, solids.
    destruct (within st lv sp nm raw) as [x|]; cbn [option_map bind fst snd]; [|reflexivity].
    rewrite run_messages. destruct (decode_messages e set (solid (fst x))); reflexivity.
  - lia.
  - intros sp' nm' raw' v Hl. rewrite message_within by lia.
    exact (then_map st lv _ _ (fun kids => decode_message e set (Elem nm' kids)) (fun m => v ++ [m])).
Qed.

Lemma run_sets e kids : forall v,
  run_all (map (round (fun nm k s => set <- response_set nm ;; ms <- decode_messages e set (solid k) ;;
                                     Some (append_to set ms s))) (solid kids)) v =
  decode_sets e (solid kids) v.
Proof.
  assert (Hg : forall l, Forall (fun n => match n with Text s => blank s = false | _ => True end) l -> forall v,
    run_all (map (round (fun nm k s => set <- response_set nm ;; ms <- decode_messages e set (solid k) ;;
                                     Some (append_to set ms s))) l) v =
    decode_sets e l v).
  { intros l Hl. induction Hl as [|n l Hn Hl IH]; intros v; [reflexivity|].
    cbn [map run_all decode_sets].
    destruct n as [nm k|s|]; cbn [round].
    + destruct (response_set nm) as [set|]; cbn [bind]; [|reflexivity].
      destruct (decode_messages e set (solid k)) as [ms|]; cbn [bind]; [|reflexivity].
      apply IH.
    + rewrite Hn. reflexivity.
    + reflexivity. }
  apply Hg. apply Forall_forall. intros n Hin. apply filter_In in Hin as [_ Hn].
  destruct n as [nm k|s|]; trivial. now apply negb_true_iff.
Qed.

Lemma sets_within e n st lv sp below raw :
  2 * length raw + 2 <= n ->
  s_sets e n (mkDec st lv raw (EStart sp (bs "OFX") :: below)) =
  then_ st lv below (within st lv sp (bs "OFX") raw) (fun kids => decode_sets e (solid kids) no_messages).
Proof.
  intros Hn. unfold s_sets.
  rewrite (loop_within st lv _ (fun nm k s => set <- response_set nm ;; ms <- decode_messages e set (solid k) ;;
                                     Some (append_to set ms s))).
  - rewrite <- looped_solids, looped_then. unfold then_, solids.
    destruct (within st lv sp (bs "OFX") raw) as [x|]; cbn [option_map bind fst snd]; [|reflexivity].
    rewrite run_sets. reflexivity.
  - lia.
  - intros sp' nm' raw' v Hl. destruct (response_set nm') as [set|]; cbn [bind].
    + rewrite messages_within by lia. unfold then_.
      destruct (within st lv sp' nm' raw') as [x|]; cbn [bind]; [|reflexivity].
      destruct (decode_messages e set (solid (fst x))); reflexivity.
    + destruct (within st lv sp' nm' raw'); reflexivity.
Qed.

(** *** The beginning of the document *)

Lemma solid_outside st lv : forall n ts,
  length ts < n ->
  next_solid n (mkDec st lv ts []) =
  match next_token ts with
  | Some (TStart sp nm, ts') => Some (XStart nm, mkDec st lv ts' [EStart sp nm])
  | Some (TEnd _ _, _) => None
  | Some (TChar s, ts') => Some (XChar s, mkDec st lv ts' [])
  | Some (_, ts') => Some (XOther, mkDec st lv ts' [])
  | None => None
  end.
Proof.
  induction n as [|n IH]; intros ts Hn; [lia|]. destruct ts as [|t ts]; [reflexivity|].
  cbn [length] in Hn. cbn [next_solid token dc_stk dc_raw dc_strict dc_leaves].
  destruct t; try reflexivity. cbn [bind fst snd next_token].
  destruct (blank s); [|reflexivity]. apply IH. lia.
Qed.

Lemma next_token_le : forall ts x, next_token ts = Some x -> length (snd x) < length ts.
Proof.
  induction ts as [|t ts IH]; intros x H; [discriminate|]. cbn [next_token] in H.
  destruct t; try (injection H as <-; cbn [snd length]; lia).
  destruct (blank s); [|injection H as <-; cbn [snd length]; lia].
  apply IH in H. cbn [length]. lia.
Qed.

(** *** The signon message set *)

(** Looking for a start tag inside an element. *)
Lemma start_within st lv : forall n sp nm below raw,
  length raw < n ->
  (within st lv sp nm raw = None /\ find_start n (mkDec st lv raw (EStart sp nm :: below)) = None)
  \/ (exists k raw' n', within st lv sp nm raw = Some (k, raw') /\ first_elem k = None
        /\ length raw' <= length raw
        /\ find_start n (mkDec st lv raw (EStart sp nm :: below)) = find_start n' (mkDec st lv raw' below))
  \/ (exists sp' nm' raw' pre, find_start n (mkDec st lv raw (EStart sp nm :: below)) =
          Some (nm', mkDec st lv raw' (EStart sp' nm' :: EStart sp nm :: below))
        /\ length raw' < length raw
        /\ (forall x l, first_elem (pre ++ Elem nm' x :: l) = Some (Elem nm' x, l))
        /\ within st lv sp nm raw =
             (a <- within st lv sp' nm' raw' ;; b <- within st lv sp nm (snd a) ;;
              Some (pre ++ Elem nm' (fst a) :: fst b, snd b))).
Proof.
  induction n as [|n IH]; intros sp nm below raw Hn; [lia|]. cbn [find_start].
  pose proof (token_within st lv sp nm below raw) as H.
  destruct (token _) as [[[nm'|nm'|s|] d]|]; cbn [bind fst snd].
  - destruct H as (sp' & raw' & -> & Hl & ->). right. right.
    exists sp', nm', raw', []. repeat split. exact Hl.
  - destruct H as (-> & raw' & -> & Hl & ->). right. left. exists [], raw', n. repeat split. exact Hl.
  - destruct H as (raw' & -> & Hl & ->).
    destruct (IH sp nm below raw') as [[Hw Hf]|[(k & raw2 & n' & Hw & Hk & Hl2 & Hf)|(sp' & nm' & raw2 & pre & Hf & Hl2 & Hp & Hw)]];
      [lia| | |].
    + left. rewrite Hw, Hf. split; reflexivity.
    + right. left. exists (Text s :: k), raw2, n'. rewrite Hw, Hf. repeat split; [exact Hk|lia].
    + right. right. exists sp', nm', raw2, (Text s :: pre). rewrite Hf, Hw. repeat split; [lia|exact Hp|].
      destruct (within st lv sp' nm' raw2) as [a|]; cbn [bind]; [|reflexivity].
      destruct (within st lv sp nm (snd a)) as [b|]; reflexivity.
  - destruct H as (raw' & -> & Hl & ->).
    destruct (IH sp nm below raw') as [[Hw Hf]|[(k & raw2 & n' & Hw & Hk & Hl2 & Hf)|(sp' & nm' & raw2 & pre & Hf & Hl2 & Hp & Hw)]];
      [lia| | |].
    + left. rewrite Hw, Hf. split; reflexivity.
    + right. left. exists (Misc :: k), raw2, n'. rewrite Hw, Hf. repeat split; [exact Hk|lia].
    + right. right. exists sp', nm', raw2, (Misc :: pre). rewrite Hf, Hw. repeat split; [lia|exact Hp|].
      destruct (within st lv sp' nm' raw2) as [a|]; cbn [bind]; [|reflexivity].
      destruct (within st lv sp nm (snd a)) as [b|]; reflexivity.
  - left. split; [exact H|reflexivity].
Qed.

(** Looking for a start tag behind the message set. *)
Lemma start_behind st lv sp nm : forall n raw stk r,
  stk = [] \/ stk = [EStart sp nm] ->
  find_start n (mkDec st lv raw stk) = Some r ->
  exists sp' raw' stk', (stk' = [] \/ stk' = [EStart sp nm]) /\ length raw' <= length raw
    /\ snd r = mkDec st lv raw' (EStart sp' (fst r) :: stk').
Proof.
  induction n as [|n IH]; intros raw stk r Hs H; [discriminate|]. cbn [find_start] in H.
  destruct Hs as [-> | ->].
  - destruct raw as [|t ts]; [discriminate|]. cbn [token dc_stk dc_raw dc_strict dc_leaves] in H.
    destruct t; cbn [bind fst snd] in H; try discriminate;
      try (apply IH in H as (sp' & raw' & stk' & H1 & H2 & H3); [|now left];
           exists sp', raw', stk'; repeat split; [exact H1|cbn [length]; lia|exact H3]).
    injection H as <-. exists space, ts, []. repeat split; [now left|cbn [length]; lia].
  - pose proof (token_within st lv sp nm [] raw) as Ht.
    destruct (token _) as [[[nm'|nm'|s|] d]|]; cbn [bind fst snd] in H; [| | | |discriminate].
    + destruct Ht as (sp' & raw' & -> & Hl & _). injection H as <-.
      exists sp', raw', [EStart sp nm]. repeat split; [now right|lia].
    + destruct Ht as (_ & raw' & -> & Hl & _).
      apply IH in H as (sp' & raw2 & stk' & H1 & H2 & H3); [|now left].
      exists sp', raw2, stk'. repeat split; [exact H1|lia|exact H3].
    + destruct Ht as (raw' & -> & Hl & _).
      apply IH in H as (sp' & raw2 & stk' & H1 & H2 & H3); [|now right].
      exists sp', raw2, stk'. repeat split; [exact H1|lia|exact H3].
    + destruct Ht as (raw' & -> & Hl & _).
      apply IH in H as (sp' & raw2 & stk' & H1 & H2 & H3); [|now right].
      exists sp', raw2, stk'. repeat split; [exact H1|lia|exact H3].
Qed.

(** The end of the signon message set has been missed. *)
Lemma end_behind st lv sp nm n raw stk :
  length raw < n -> stk = [] \/ stk = [EStart sp nm] ->
  match next_solid n (mkDec st lv raw stk) with
  | Some (XEnd en, _) => en = nm
  | _ => True
  end.
Proof.
  intros Hn [-> | ->].
  - rewrite solid_outside by exact Hn. destruct (next_token raw) as [[[] ts']|]; exact I.
  - pose proof (solid_within st lv n sp nm [] raw Hn) as H.
    destruct (next_solid n _) as [[[nm'|nm'|s|] d]|]; try exact I. apply H.
Qed.

(** *** The whole *)

Lemma ofx_within e n version st lv ts :
  2 * length ts + 2 <= n ->
  s_ofx e n version (mkDec st lv ts []) =
  match next_token ts with
  | Some (TStart sp nm, ts') =>
      if str_eqb nm (bs "OFX")
      then then_ st lv [] (within st lv sp nm ts') (fun kids => decode_ofx e version (Elem nm kids))
      else None
  | _ => None
  end.
Proof.
  intros Hn. unfold s_ofx. rewrite solid_outside by lia.
  destruct (next_token ts) as [[t ts1]|] eqn:Et; [|reflexivity].
  apply next_token_le in Et. cbn [snd] in Et.
  destruct t as [sp nm| | | |]; try reflexivity. cbn [bind fst snd].
  destruct (str_eqb nm (bs "OFX")) eqn:Enm; [|reflexivity]. cbn [negb].
  apply str_eqb_eq in Enm. subst nm.
  set (tree := fun l : list node =>
    match l with
    | Elem sn sk :: sets =>
        if negb (str_eqb sn (msgtype_string (MSignon, Rs))) then None
        else
          match first_elem sk with
          | Some (x, rest) =>
              if negb (null (solid rest)) then None
              else
                v <- unmarshal e SignonResponse_ty x (zero SignonResponse_ty) ;;
                s <- decode_sets e sets no_messages ;;
                Some (mkResponse version (SignonResponse_of v) s)
          | None => None
          end
    | _ => None
    end).
  transitivity (then_ st lv [] (solids (within st lv sp (bs "OFX") ts1)) tree).
  2:{ unfold then_, solids. destruct (within st lv sp (bs "OFX") ts1) as [x|]; reflexivity. }
  pose proof (solid_within st lv n sp (bs "OFX") [] ts1 ltac:(lia)) as H.
  destruct (next_solid n _) as [[[sn|en|s|] d]|]; cbn [bind fst snd].
  2:{ destruct H as (_ & raw' & _ & _ & ->). reflexivity. }
  2:{ destruct H as (_ & rest & ->). destruct rest; reflexivity. }
  2:{ destruct H as (rest & ->). destruct rest; reflexivity. }
  2:{ rewrite H. reflexivity. }
  destruct H as (sp1 & raw1 & -> & Hl1 & ->).
  destruct (str_eqb sn (msgtype_string (MSignon, Rs))) eqn:Esn.
  2:{ cbn [negb]. unfold then_. destruct (within st lv sp1 sn raw1) as [a|]; [|reflexivity]. cbn [bind].
      destruct (solids _) as [b|]; [|reflexivity]. cbn [bind fst snd tree]. now rewrite Esn. }
  cbn [negb].
  destruct (start_within st lv n sp1 sn [EStart sp (bs "OFX")] raw1)
    as [[Hw Hf]|[(k & raw2 & n' & Hw & Hk & Hl2 & Hf)|(sp' & nm' & raw2 & pre & Hf & Hl2 & Hp & Hw)]]; [lia| | |].
  - rewrite Hw, Hf. reflexivity.
  - (* no element in the set *)
    transitivity (@None (Response * dec)).
    + rewrite Hf. destruct (find_start n' _) as [c|] eqn:Ec; cbn [bind]; [|reflexivity].
      apply (start_behind st lv sp (bs "OFX")) in Ec as (sp' & raw3 & stk & Hstk & Hl3 & Hd); [|now right].
      rewrite Hd, value_within by lia. unfold then_.
      destruct (within st lv sp' (fst c) raw3) as [a|] eqn:Ea; cbn [bind]; [|reflexivity].
      apply within_le in Ea.
      destruct (unmarshal e SignonResponse_ty (Elem (fst c) (fst a)) (zero SignonResponse_ty)) as [v|];
        cbn [option_map bind fst snd]; [|reflexivity].
      pose proof (end_behind st lv sp (bs "OFX") n (snd a) stk ltac:(lia) Hstk) as He.
      destruct (next_solid n _) as [[[sn2|en|s|] d]|]; cbn [bind fst snd]; try reflexivity.
      subst en. reflexivity.
    + rewrite Hw. unfold then_. cbn [bind fst snd].
      destruct (solids _) as [b|]; [|reflexivity]. cbn [bind fst snd tree]. rewrite Esn, Hk. reflexivity.
  - rewrite Hf. cbn [bind fst snd]. rewrite value_within by lia. rewrite Hw. unfold then_ at 1.
    destruct (within st lv sp' nm' raw2) as [a|] eqn:Ea; cbn [bind]; [|reflexivity].
    apply within_le in Ea.
    pose proof (solid_within st lv n sp1 sn [EStart sp (bs "OFX")] (snd a) ltac:(lia)) as H2.
    destruct (unmarshal e SignonResponse_ty (Elem nm' (fst a)) (zero SignonResponse_ty)) as [v|] eqn:Ev;
      cbn [option_map bind fst snd].
    2:{ unfold then_. destruct (within st lv sp1 sn (snd a)) as [b|]; [|reflexivity]. cbn [bind fst snd].
        clear H2. destruct (solids (within st lv sp (bs "OFX") (snd b))) as [c|]; [|reflexivity].
        cbn [bind fst snd tree]. rewrite Esn, Hp, Ev. cbn [negb bind].
        destruct (null (solid (fst b))); reflexivity. }
    assert (Hbad : forall q b', solids (within st lv sp1 sn (snd a)) = (b <- b' ;; Some (q :: fst b, snd b)) ->
              then_ st lv []
                (a0 <- (b <- within st lv sp1 sn (snd a) ;; Some (pre ++ Elem nm' (fst a) :: fst b, snd b)) ;;
                 b <- solids (within st lv sp (bs "OFX") (snd a0)) ;; Some (Elem sn (fst a0) :: fst b, snd b)) tree = None).
    { intros q b' Hq. destruct (within st lv sp1 sn (snd a)) as [b|]; [|reflexivity].
      cbn [bind fst snd]. cbn [solids option_map] in Hq. destruct b' as [b'|]; [|discriminate].
      cbn [bind] in Hq. assert (Hsol : null (solid (fst b)) = false) by (injection Hq as -> _; reflexivity).
      destruct (solids (within st lv sp (bs "OFX") (snd b))) as [c|]; [|reflexivity].
      unfold then_. cbn [bind fst snd tree]. rewrite Esn, Hp, Hsol. reflexivity. }
    destruct (next_solid n _) as [[[sn2|en|s|] d]|]; cbn [bind fst snd].
    + destruct H2 as (sp2 & raw3 & _ & _ & Hs).
      destruct (within st lv sp2 sn2 raw3) as [a'|]; cbn [bind] in Hs.
      * symmetry. eapply Hbad. exact Hs.
      * destruct (within st lv sp1 sn (snd a)); [discriminate|]. reflexivity.
    + destruct H2 as (-> & raw3 & -> & Hl3 & Hs). rewrite Esn. cbn [negb].
      rewrite sets_within by lia. unfold solids at 1 in Hs.
      destruct (within st lv sp1 sn (snd a)) as [b|]; [|discriminate].
      cbn [option_map] in Hs. injection Hs as Hs1 Hs2.
      cbn [bind fst snd]. rewrite Hs2. unfold then_, solids.
      destruct (within st lv sp (bs "OFX") raw3) as [c|]; [|reflexivity].
      cbn [option_map bind fst snd tree]. rewrite Esn, Hp, Ev, Hs1. cbn [negb null bind].
      destruct (decode_sets e (solid (fst c)) no_messages) as [sl|]; reflexivity.
    + destruct H2 as (_ & rest & Hs). symmetry. eapply Hbad. exact Hs.
    + destruct H2 as (rest & Hs). symmetry. eapply Hbad. exact Hs.
    + rewrite H2. reflexivity.
Qed.

Lemma response_stream e s :
  exists n, forall fuel, n <= fuel -> stream_response e fuel s = decode_response e s.
Proof.
  assert (Hgo : forall st lv v ts fuel, 2 * length ts + 2 <= fuel ->
            option_map fst (s_ofx e fuel v (mkDec st lv ts [])) =
            (n <- read_ofx st lv ts ;; decode_ofx e v n)).
  { intros st lv v ts fuel Hf. rewrite ofx_within by exact Hf. unfold read_ofx.
    destruct (next_token ts) as [[[sp nm|sp nm|s'|a b|] ts']|]; try reflexivity.
    cbn [bind fst snd]. destruct (str_eqb nm (bs "OFX")); [|reflexivity].
    rewrite document_within. unfold then_. destruct (within st lv sp nm ts') as [x|]; [|reflexivity].
    cbn [bind option_map fst snd]. destruct (decode_ofx e v (Elem nm (fst x))); reflexivity. }
  unfold stream_response, decode_response, read_document.
  destruct (guess_xml s).
  - destruct (read_xml_headers (lex true s)) as [h|]; [|exists 0; reflexivity].
    exists (2 * length (snd h) + 2). intros fuel Hf. cbn [bind]. rewrite Hgo by exact Hf.
    destruct (read_ofx true [] (snd h)); reflexivity.
  - destruct (read_sgml_headers s) as [h|]; [|exists 0; reflexivity].
    exists (2 * length (lex false (snd h)) + 2). intros fuel Hf. cbn [bind]. rewrite Hgo by exact Hf.
    destruct (read_ofx false ofx_leaf_elements (lex false (snd h))); reflexivity.
Qed.

(** ** What is consumed *)

(** A run over the tokens [ts] ends before [rest], whatever comes there; or it ends
    because of the token that comes there and leaves it unused. *)
Definition ends_before {A} (lax : Prop) (run : list Xml.token -> option (A * list Xml.token)) (ts : list Xml.token) (v : A)
  (rest : list Xml.token) : Prop :=
  exists used, ts = used ++ rest /\
    ((forall more, run (used ++ more) = Some (v, more))
     \/ exists t tl, lax /\ rest = t :: tl /\ forall more, run (used ++ t :: more) = Some (v, t :: more)).

Lemma within_ends st lv : forall n sp nm raw r,
  length raw < n -> within st lv sp nm raw = Some r ->
  ends_before (st = false) (within st lv sp nm) raw (fst r) (snd r).
Proof.
  induction n as [|n IH]; intros sp nm raw r Hn H; [lia|].
  destruct raw as [|t ts]; [discriminate|]. cbn [length] in Hn.
  rewrite within_cons in H. cbv zeta in H.
  assert (Hkid : forall k, (forall more, within st lv sp nm (t :: more) =
                              (b <- within st lv sp nm more ;; Some (k :: fst b, snd b))) ->
            (b <- within st lv sp nm ts ;; Some (k :: fst b, snd b)) = Some r ->
            ends_before (st = false) (within st lv sp nm) (t :: ts) (fst r) (snd r)).
  { intros k Hk Hb. destruct (within st lv sp nm ts) as [b|] eqn:Eb; cbn [bind] in Hb; [|discriminate].
    injection Hb as <-. cbn [fst snd].
    apply IH in Eb; [|lia]. destruct Eb as (used & E1 & E2). exists (t :: used). split; [now rewrite E1 at 1|].
    destruct E2 as [E2|(t' & tl & Lx & E3 & E2)]; [left|right; exists t', tl; split; [exact Lx|]; split; [exact E3|]];
      intros more; cbn [app]; rewrite Hk, E2; reflexivity. }
  assert (Hstop : st = false -> (forall more, within st lv sp nm (t :: more) = Some ([], t :: more)) ->
            r = ([], t :: ts) -> ends_before (st = false) (within st lv sp nm) (t :: ts) (fst r) (snd r)).
  { intros Lx Hm ->. exists []. split; [reflexivity|]. right. exists t, ts. split; [exact Lx|]. split; [reflexivity|]. exact Hm. }
  destruct t.
  - destruct (negb st && fold_member nm lv) eqn:El.
    + injection H as <-. apply Hstop; [now destruct st| |reflexivity]. intros more. rewrite within_cons. cbv zeta. now rewrite El.
    + assert (Heq : forall more, within st lv sp nm (TStart space local :: more) =
                (a <- within st lv space local more ;; b <- within st lv sp nm (snd a) ;;
                 Some (Elem local (fst a) :: fst b, snd b))).
      { intros more. rewrite within_cons. cbv zeta. now rewrite El. }
      destruct (within st lv space local ts) as [a|] eqn:Ea; cbn [bind] in H; [|discriminate].
      destruct (within st lv sp nm (snd a)) as [b|] eqn:Eb; cbn [bind] in H; [|discriminate].
      injection H as <-. cbn [fst snd]. pose proof (within_le _ _ _ _ _ _ Ea) as Hla.
      apply IH in Ea; [|lia]. apply IH in Eb; [|lia].
      destruct Ea as (u1 & E1 & E2). destruct Eb as (u2 & E3 & E4).
      destruct E2 as [E2|(t1 & tl1 & Lx1 & E5 & E2)].
      * exists (TStart space local :: u1 ++ u2).
        split; [rewrite E1, E3 at 1; cbn [app]; now rewrite <- app_assoc|].
        destruct E4 as [E4|(t' & tl & Lx & E6 & E4)]; [left|right; exists t', tl; split; [exact Lx|]; split; [exact E6|]];
          intros more; cbn [app]; rewrite <- app_assoc, Heq, E2; cbn [bind fst snd]; rewrite E4; reflexivity.
      * rewrite E5 in E3. destruct u2 as [|t2 u2].
        -- cbn [app] in *. exists (TStart space local :: u1).
           split; [rewrite E1, E5, <- E3 at 1; reflexivity|]. right. exists t1, tl1. split; [exact Lx1|]. split; [now rewrite <- E3|].
           intros more. cbn [app]. rewrite Heq, E2. cbn [bind fst snd].
           destruct E4 as [E4|(t' & tl & Lx & E6 & E4)].
           ++ specialize (E4 []). discriminate.
           ++ rewrite <- E3 in E6. injection E6 as <- <-. rewrite E4. reflexivity.
        -- cbn [app] in E3. injection E3 as <- E3. exists (TStart space local :: u1 ++ t1 :: u2).
           split; [rewrite E1, E5, E3 at 1; cbn [app]; now rewrite <- app_assoc|].
           destruct E4 as [E4|(t' & tl & Lx & E6 & E4)]; [left|right; exists t', tl; split; [exact Lx|]; split; [exact E6|]];
             intros more; cbn [app] in *; rewrite <- app_assoc, Heq; cbn [app]; rewrite E2; cbn [bind fst snd];
             rewrite E4; reflexivity.
  - destruct (str_eqb nm local) eqn:E1; [destruct (str_eqb sp space) eqn:E2|destruct st eqn:E2]; try discriminate.
    + injection H as <-. exists [TEnd space local]. split; [reflexivity|]. left. intros more.
      cbn [app]. rewrite within_cons. cbv zeta. now rewrite E1, E2.
    + injection H as <-. apply Hstop; [now destruct st| |reflexivity]. intros more. rewrite within_cons. cbv zeta. now rewrite E1.
  - eapply Hkid; [|exact H]. intros more. rewrite within_cons. reflexivity.
  - destruct (negb st && fold_member nm lv) eqn:El.
    + injection H as <-. apply Hstop; [now destruct st| |reflexivity]. intros more. rewrite within_cons. cbv zeta. now rewrite El.
    + eapply Hkid; [|exact H]. intros more. rewrite within_cons. cbv zeta. now rewrite El.
  - destruct (negb st && fold_member nm lv) eqn:El.
    + injection H as <-. apply Hstop; [now destruct st| |reflexivity]. intros more. rewrite within_cons. cbv zeta. now rewrite El.
    + eapply Hkid; [|exact H]. intros more. rewrite within_cons. cbv zeta. now rewrite El.
Qed.

Lemma within_suffix st lv sp nm raw r :
  within st lv sp nm raw = Some r -> exists used, raw = used ++ snd r.
Proof. intros H. apply (within_ends st lv (S (length raw))) in H as (u & E & _); [|lia]. now exists u. Qed.

Lemma element_reads e t d sp nm below old v d' :
  dc_stk d = EStart sp nm :: below -> reads_element e t nm old d v d' ->
  skips d d' /\ dc_stk d' = below /\ exists used, dc_raw d = used ++ dc_raw d'.
Proof.
  destruct d as [st lv raw stk]. cbn [dc_stk dc_raw]. intros -> [n Hn].
  specialize (Hn (Nat.max n (2 * length raw + 2)) ltac:(lia)).
  rewrite value_within in Hn by lia. unfold then_ in Hn.
  destruct (within st lv sp nm raw) as [x|] eqn:Ex; cbn [bind] in Hn; [|discriminate].
  destruct (unmarshal e t (Elem nm (fst x)) old); cbn [option_map] in Hn; [|discriminate].
  injection Hn as _ <-. repeat split.
  - exists (S (length raw)). intros fuel Hf. rewrite skip_within by lia. now rewrite Ex.
  - cbn [dc_raw]. eapply within_suffix. exact Ex.
Qed.

Lemma element_tree e t d sp nm below old :
  dc_stk d = EStart sp nm :: below ->
  forall v d', reads_element e t nm old d v d' <->
    exists kids, skips d d' /\ read_element (dc_strict d) (dc_leaves d) (dc_raw d) [(sp, nm, [])] = Some (Elem nm kids)
      /\ unmarshal e t (Elem nm kids) old = Some v.
Proof.
  destruct d as [st lv raw stk]. cbn [dc_stk dc_raw dc_strict dc_leaves]. intros -> v d'.
  rewrite document_within. split.
  - intros Hr. pose proof (element_reads e t (mkDec st lv raw (EStart sp nm :: below)) sp nm below old v d' eq_refl Hr) as (Hs & _ & _).
    destruct Hr as [n Hn]. specialize (Hn (Nat.max n (2 * length raw + 2)) ltac:(lia)).
    rewrite value_within in Hn by lia. unfold then_ in Hn.
    destruct (within st lv sp nm raw) as [x|] eqn:Ex; cbn [bind] in Hn; [|discriminate].
    exists (fst x). split; [exact Hs|]. split; [reflexivity|].
    destruct (unmarshal e t (Elem nm (fst x)) old); cbn [option_map] in Hn; [|discriminate].
    injection Hn as <- _. reflexivity.
  - intros (kids & [n Hs] & Hk & Hu). specialize (Hs (Nat.max n (S (length raw))) ltac:(lia)).
    rewrite skip_within in Hs by lia.
    destruct (within st lv sp nm raw) as [x|] eqn:Ex; cbn [option_map] in Hs, Hk; [|discriminate].
    injection Hs as <-. injection Hk as <-.
    exists (2 * length raw + 2). intros fuel Hf. rewrite value_within by lia. rewrite Ex. unfold then_.
    cbn [bind fst snd]. now rewrite Hu.
Qed.

Lemma next_token_used : forall ts t rest, next_token ts = Some (t, rest) ->
  exists used, ts = used ++ t :: rest /\ forall more, next_token (used ++ t :: more) = Some (t, more).
Proof.
  induction ts as [|t0 ts IH]; intros t rest H; [discriminate|]. cbn [next_token] in H.
  assert (Hplain : (forall more, next_token (t0 :: more) = Some (t0, more)) -> Some (t0, ts) = Some (t, rest) ->
            exists used, t0 :: ts = used ++ t :: rest /\ forall more, next_token (used ++ t :: more) = Some (t, more)).
  { intros Hm [= <- <-]. exists []. split; [reflexivity|exact Hm]. }
  destruct t0; try (apply Hplain; [reflexivity|exact H]).
  destruct (blank s) eqn:Eb.
  - apply IH in H as (used & -> & Hm). exists (TChar s :: used). split; [reflexivity|].
    intros more. cbn [app next_token]. rewrite Eb. apply Hm.
  - apply Hplain; [|exact H]. intros more. cbn [next_token]. now rewrite Eb.
Qed.

Lemma ofx_reads e version d r d' :
  dc_stk d = [] -> reads_ofx e version d r d' ->
  d' = facing (dc_raw d') d /\
  exists used, dc_raw d = used ++ dc_raw d' /\
    ((forall more, reads_ofx e version (facing (used ++ more) d) r (facing more d))
     \/ exists t tl, dc_strict d = false /\ dc_raw d' = t :: tl /\
          forall more, reads_ofx e version (facing (used ++ t :: more) d) r (facing (t :: more) d)).
Proof.
  destruct d as [st lv raw stk]. cbn [dc_stk dc_raw dc_strict dc_leaves]. intros -> [n Hn].
  specialize (Hn (Nat.max n (2 * length raw + 2)) ltac:(lia)). rewrite ofx_within in Hn by lia.
  destruct (next_token raw) as [[[sp nm| | | |] ts]|] eqn:Et; try discriminate.
  destruct (str_eqb nm (bs "OFX")) eqn:Enm; [|discriminate]. unfold then_ in Hn.
  destruct (within st lv sp nm ts) as [x|] eqn:Ex; cbn [bind] in Hn; [|discriminate].
  destruct (decode_ofx e version (Elem nm (fst x))) as [r'|] eqn:Er; cbn [option_map] in Hn; [|discriminate].
  injection Hn as -> <-. split; [reflexivity|]. cbn [dc_raw].
  apply next_token_used in Et as (u1 & -> & Hm).
  apply (within_ends st lv (S (length ts))) in Ex as (u2 & E1 & E2); [|lia].
  exists (u1 ++ TStart sp nm :: u2). split; [rewrite E1 at 1; now rewrite <- app_assoc|].
  assert (Hreads : forall more more', within st lv sp nm (u2 ++ more') = Some (fst x, more) ->
            reads_ofx e version (mkDec st lv (u1 ++ TStart sp nm :: u2 ++ more') []) r (mkDec st lv more [])).
  { intros more more' Hw. eexists. intros fuel Hf. rewrite ofx_within by exact Hf. rewrite Hm, Enm.
    unfold then_. rewrite Hw. cbn [bind fst snd]. now rewrite Er. }
  unfold facing. cbn [dc_stk dc_raw dc_strict dc_leaves].
  destruct E2 as [E2|(t & tl & Lx & E3 & E2)].
  - left. intros more. rewrite <- app_assoc. cbn [app]. apply Hreads, E2.
  - right. exists t, tl. split; [exact Lx|]. split; [exact E3|]. intros more.
    rewrite <- app_assoc. cbn [app]. apply Hreads, E2.
Qed.
