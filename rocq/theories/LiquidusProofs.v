(** Proofs about the search for the liquidus: rounds, brackets, termination. *)
From Coq Require Import Reals List Bool Arith ZArith Lia Lra FunctionalExtensionality.
From Verif Require Import MassModel MassSpec MassProofs RedoxModel RedoxProps LiquidusModel.
Import ListNotations.
Local Open Scope R_scope.

(** ** One round of four calls *)
Section Rounds.
Variable tab : Tab.
Variable coeff : nat -> R.
Variables iF2 iF3 : nat.
Variable capped : bool.
Variable P : R.
Variable buffer : R -> R.
Variable saturated : R -> R -> R -> St -> bool.
Notation changeTP := (changeTP tab coeff iF2 iF3 capped P buffer).
Notation liquidus := (liquidus tab coeff iF2 iF3 capped P buffer saturated).
Notation search := (search tab coeff iF2 iF3 capped P buffer saturated).
Notation testSat := (testSat saturated).
Notation tests := (tests saturated).

Definition oneRound (c : LCtl) (y : LSys) : LState * bool :=
  updateSystem (mkLCtl UPDATE_SYSTEM (testSat (changeTP y)) (tState c) (tInterval c) (status c)) (changeTP y).
Definition oneTest (y : LSys) : R * St * bool := (T y, matter (changeTP y), testSat (changeTP y)).

Lemma changeTP_T y : T (changeTP y) = T y.
Proof. unfold LiquidusModel.changeTP. now destruct (fo2On (matter y)). Qed.
Lemma changeTP_tabT y : tabT (changeTP y) = T y.
Proof. unfold LiquidusModel.changeTP. now destruct (fo2On (matter y)). Qed.
Lemma changeTP_unfit y : unfit (changeTP y) = unfit y.
Proof. unfold LiquidusModel.changeTP. now destruct (fo2On (matter y)). Qed.
Lemma setT_unfit x y : unfit (setT x y) = unfit y. Proof. reflexivity. Qed.

Lemma search_det s l s' : search s l s' -> forall l2 s2, search s l2 s2 -> l2 = l /\ s2 = s'.
Proof.
  induction 1 as [s s' E|s s' l s'' E _ IH]; intros l2 s2 H2; inversion H2; subst; rewrite E in *; try congruence.
  - split; congruence.
  - assert (s'0 = s') by congruence. subst. destruct (IH _ _ H0) as (-> & ->). auto.
Qed.

Lemma round_back c y l s' : curStep c = CHECK_CONDITION -> unfit y = false -> search (c, y) l s' ->
  exists l1, l = oneTest y :: l1 /\
    ((oneRound c y = (s', true) /\ l1 = []) \/ exists s1, oneRound c y = (s1, false) /\ search s1 l1 s').
Proof.
  intros Hc Hu H.
  inversion H as [a b E|a b l0 d E H2]; subst; cbn [LiquidusModel.liquidus] in E; rewrite Hc, Hu in E; [congruence|].
  injection E as <-. replace (tests (c, y)) with (@nil (R * St * bool)) by (unfold LiquidusModel.tests; cbn [fst]; now rewrite Hc).
  cbn [app]. clear H.
  inversion H2 as [a b E|a b l1 d E H3]; subst; cbn [LiquidusModel.liquidus setStep curStep] in E; [congruence|].
  injection E as <-. change (tests (setStep CHANGE_TP c, y)) with (@nil (R * St * bool)). cbn [app]. clear H2.
  inversion H3 as [a b E|a b l2 d E H4]; subst; cbn [LiquidusModel.liquidus setStep curStep] in E; [congruence|].
  injection E as <-. clear H3.
  change (tests (setStep CHECK_SATURATION (setStep CHANGE_TP c), changeTP y)) with
    [(T (changeTP y), matter (changeTP y), testSat (changeTP y))]. rewrite changeTP_T. cbn [app]. exists l2. split; [reflexivity|].
  inversion H4 as [a b E|a b l3 d E H5]; subst; cbn [LiquidusModel.liquidus setStep curStep tState tInterval status] in E.
  - left. split; [exact E|reflexivity].
  - right. exists b. split; [exact E|exact H5].
Qed.

Lemma round_end c y s' : curStep c = CHECK_CONDITION -> unfit y = false -> oneRound c y = (s', true) ->
  search (c, y) [oneTest y] s'.
Proof.
  intros Hc Hu E. change [oneTest y] with ([] ++ [] ++ [oneTest y] ++ @nil (R * St * bool)).
  replace (@nil (R * St * bool)) with (tests (c, y)) at 1 by (unfold LiquidusModel.tests; cbn [fst]; now rewrite Hc).
  apply search_go with (setStep CHANGE_TP c, y). { unfold LiquidusModel.liquidus. now rewrite Hc, Hu. }
  refine (search_go _ _ _ _ _ _ _ _ (setStep CHANGE_TP c, y) (setStep CHECK_SATURATION c, changeTP y) _ _ _ _). { reflexivity. }
  unfold oneTest. rewrite <- changeTP_T.
  refine (search_go _ _ _ _ _ _ _ _ (setStep CHECK_SATURATION c, changeTP y)
            (mkLCtl UPDATE_SYSTEM (testSat (changeTP y)) (tState c) (tInterval c) (status c), changeTP y) _ _ _ _). { reflexivity. }
  refine (search_end _ _ _ _ _ _ _ _ (mkLCtl UPDATE_SYSTEM (testSat (changeTP y)) (tState c) (tInterval c) (status c), changeTP y) _ _). exact E.
Qed.
Lemma round_go c y s1 l1 s' : curStep c = CHECK_CONDITION -> unfit y = false -> oneRound c y = (s1, false) ->
  search s1 l1 s' -> search (c, y) (oneTest y :: l1) s'.
Proof.
  intros Hc Hu E S. change (oneTest y :: l1) with ([] ++ [] ++ [oneTest y] ++ [] ++ l1).
  replace (@nil (R * St * bool)) with (tests (c, y)) at 1 by (unfold LiquidusModel.tests; cbn [fst]; now rewrite Hc).
  apply search_go with (setStep CHANGE_TP c, y). { unfold LiquidusModel.liquidus. now rewrite Hc, Hu. }
  refine (search_go _ _ _ _ _ _ _ _ (setStep CHANGE_TP c, y) (setStep CHECK_SATURATION c, changeTP y) _ _ _ _). { reflexivity. }
  unfold oneTest. rewrite <- changeTP_T.
  refine (search_go _ _ _ _ _ _ _ _ (setStep CHECK_SATURATION c, changeTP y)
            (mkLCtl UPDATE_SYSTEM (testSat (changeTP y)) (tState c) (tInterval c) (status c), changeTP y) _ _ _ _). { reflexivity. }
  refine (search_go _ _ _ _ _ _ _ _ (mkLCtl UPDATE_SYSTEM (testSat (changeTP y)) (tState c) (tInterval c) (status c), changeTP y) s1 _ _ _ _); [exact E|exact S].
Qed.

(** what a round does once a direction is set *)
Definition width (k : nat) : R := 50 / 2 ^ k.
Lemma width_S k : width (S k) = width k / 2.
Proof. unfold width. cbn [pow]. pose proof (pow_lt 2 k ltac:(lra)). field. lra. Qed.
Lemma width_le k : (k <= 8)%nat -> 1 / 10 < width k.
Proof. intros H. unfold width. do 9 (destruct k as [|k]; [cbn [pow]; lra|]). lia. Qed.
Lemma width_9 : ~ 1 / 10 < width 9. Proof. unfold width; cbn [pow]; lra. Qed.

Lemma round_same c y b k : tState c = Some b -> Rabs (tInterval c) = width k -> (k <= 8)%nat -> testSat (changeTP y) = b ->
  oneRound c y = ((mkLCtl CHECK_CONDITION b (Some b) (tInterval c) (status c), setT (T y + tInterval c) (changeTP y)), false).
Proof.
  intros E W K S. unfold oneRound, updateSystem. cbn [tState hasSuper tInterval status]. rewrite E, S, Bool.eqb_reflx.
  cbn [tState hasSuper tInterval status]. rewrite changeTP_T. destruct (Rlt_dec (1 / 10) (Rabs (tInterval c))) as [|N]; [|exfalso; apply N; rewrite W; now apply width_le].
  unfold setStep; cbn [tState hasSuper tInterval status]. reflexivity.
Qed.
Lemma half_abs x : Rabs (x * - (1 / 2)) = Rabs x / 2.
Proof. rewrite Rabs_mult, Rabs_Ropp, (Rabs_right (1/2)) by lra. field. Qed.
Lemma round_flip c y b k : tState c = Some b -> Rabs (tInterval c) = width k -> (k < 8)%nat -> testSat (changeTP y) = negb b ->
  oneRound c y = ((mkLCtl CHECK_CONDITION (negb b) (Some (negb b)) (tInterval c * - (1 / 2)) (status c), setT (T y + tInterval c * - (1 / 2)) (changeTP y)), false).
Proof.
  intros E W K F. unfold oneRound, updateSystem. cbn [tState hasSuper tInterval status]. rewrite E, F.
  replace (Bool.eqb b (negb b)) with false by now destruct b.
  cbn [tState hasSuper tInterval status]. rewrite changeTP_T, half_abs, W, <- width_S.
  destruct (Rlt_dec (1 / 10) (width (S k))) as [|N]; [|exfalso; apply N; apply width_le; lia]. reflexivity.
Qed.
Lemma round_last c y b : tState c = Some b -> Rabs (tInterval c) = width 8 -> testSat (changeTP y) = negb b ->
  oneRound c y = ((mkLCtl CHECK_CONDITION (negb b) None (tInterval c * - (1 / 2)) LIQUIDUS_SUCCESS, changeTP y), true).
Proof.
  intros E W S. unfold oneRound, updateSystem. cbn [tState hasSuper tInterval status]. rewrite E, S.
  replace (Bool.eqb b (negb b)) with false by now destruct b.
  cbn [tState hasSuper tInterval status]. rewrite half_abs, W, <- width_S.
  destruct (Rlt_dec (1 / 10) (width 9)) as [Y|]; [destruct (width_9 Y)|]. reflexivity.
Qed.

(** the result of a search under way *)
Lemma under_way : forall n l, length l = n -> forall c y s' b k Tp mp, curStep c = CHECK_CONDITION -> unfit y = false ->
  tState c = Some b -> Rabs (tInterval c) = width k -> (k <= 8)%nat -> T y = Tp + tInterval c ->
  search (c, y) l s' ->
  status (fst s') = LIQUIDUS_SUCCESS /\ tState (fst s') = None /\ curStep (fst s') = CHECK_CONDITION /\
  (exists y1, snd s' = changeTP y1 /\ unfit y1 = false) /\
  exists l0 Tq mq m q, (Tp, mp, b) :: l = l0 ++ [(Tq, mq, q); (T (snd s'), m, negb q)] /\ m = matter (snd s') /\ Rabs (T (snd s') - Tq) = width 8.
Proof.
  induction n as [n IH] using lt_wf_ind. intros l Hl c y s' b k Tp mp Hc Hu Ht Hw Hk HT S.
  destruct (round_back c y l s' Hc Hu S) as (l1 & -> & C). clear S. cbn [length] in Hl.
  destruct (Bool.bool_dec (testSat (changeTP y)) b) as [E|E].
  - pose proof (round_same c y b k Ht Hw Hk E) as RS. rewrite RS in C. destruct C as [(C & _)|(s1 & C & S1)]; [congruence|].
    injection C as <-.
    destruct (IH (length l1) ltac:(lia) l1 eq_refl (mkLCtl CHECK_CONDITION b (Some b) (tInterval c) (status c)) (setT (T y + tInterval c) (changeTP y)) s' b k (T y) (matter (changeTP y)) eq_refl (eq_trans (changeTP_unfit y) Hu) eq_refl Hw Hk eq_refl S1)
      as (A1 & A2 & A3 & A4 & l0 & Tq & mq & m & q & EQ & EM & A).
    split; [exact A1|split; [exact A2|split; [exact A3|split; [exact A4|]]]].
    exists ((Tp, mp, b) :: l0), Tq, mq, m, q. split; [|split; [exact EM|exact A]].
    unfold oneTest. rewrite E. cbn [app]. now rewrite <- EQ.
  - assert (F : testSat (changeTP y) = negb b) by (destruct (testSat (changeTP y)), b; auto; congruence).
    destruct (Nat.eq_dec k 8) as [->|NK].
    + pose proof (round_last c y b Ht Hw F) as RS. rewrite RS in C. destruct C as [(C & ->)|(s1 & C & _)]; [|congruence].
      injection C as <-. cbn [fst snd status tState curStep]. split; [reflexivity|split; [reflexivity|split; [reflexivity|split]]].
      * exists y. auto.
      * exists [], Tp, mp, (matter (changeTP y)), b. rewrite changeTP_T. split; [|split; [reflexivity|]].
        { unfold oneTest. now rewrite F. }
        { rewrite HT. replace (Tp + tInterval c - Tp) with (tInterval c) by ring. exact Hw. }
    + pose proof (round_flip c y b k Ht Hw ltac:(lia) F) as RS. rewrite RS in C. destruct C as [(C & _)|(s1 & C & S1)]; [congruence|].
      injection C as <-.
      assert (W : Rabs (tInterval c * - (1 / 2)) = width (S k)) by (rewrite half_abs, Hw, width_S; reflexivity).
      destruct (IH (length l1) ltac:(lia) l1 eq_refl (mkLCtl CHECK_CONDITION (negb b) (Some (negb b)) (tInterval c * - (1 / 2)) (status c)) (setT (T y + tInterval c * - (1 / 2)) (changeTP y)) s' (negb b) (S k) (T y) (matter (changeTP y)) eq_refl (eq_trans (changeTP_unfit y) Hu) eq_refl W ltac:(lia) eq_refl S1)
        as (A1 & A2 & A3 & A4 & l0 & Tq & mq & m & q & EQ & EM & A).
      split; [exact A1|split; [exact A2|split; [exact A3|split; [exact A4|]]]].
      exists ((Tp, mp, b) :: l0), Tq, mq, m, q. split; [|split; [exact EM|exact A]].
      unfold oneTest. rewrite F. cbn [app]. now rewrite <- EQ.
Qed.

(** the first round *)
Definition firstInt (b : bool) : R := if b then 50 else - (50).
Lemma round_first c y : tState c = None -> let b := testSat (changeTP y) in let T1 := T y + firstInt b in
  oneRound c y =
    if Rlt_dec 2500 T1 then ((mkLCtl UPDATE_SYSTEM b (Some b) (firstInt b) LIQUIDUS_MAX_T, setT T1 (changeTP y)), true)
    else if Rlt_dec T1 500 then ((mkLCtl UPDATE_SYSTEM b (Some b) (firstInt b) LIQUIDUS_MIN_T, setT T1 (changeTP y)), true)
    else ((mkLCtl CHECK_CONDITION b (Some b) (firstInt b) (status c), setT T1 (changeTP y)), false).
Proof.
  intros E b T1. unfold oneRound, updateSystem. cbn [tState hasSuper tInterval status curStep T setT]. rewrite E, changeTP_T.
  fold b. change (if b then 50 else - (50)) with (firstInt b). fold T1. reflexivity.
Qed.
Lemma firstInt_abs b : Rabs (firstInt b) = width 0.
Proof. unfold width; cbn [pow]; destruct b; unfold firstInt; [rewrite Rabs_right|rewrite Rabs_left]; lra. Qed.
End Rounds.

(** ** The answer of a test depends on the temperature only, not on the temperatures tested before *)
Section Ends.
Variable tab : Tab.
Variable coeff : nat -> R.
Variables iF2 iF3 : nat.
Variable capped : bool.
Variable P : R.
Variable buffer : R -> R.
Variable saturated : R -> R -> R -> St -> bool.
Notation changeTP := (changeTP tab coeff iF2 iF3 capped P buffer).
Notation search := (search tab coeff iF2 iF3 capped P buffer saturated).
Notation testSat := (testSat saturated).
Notation oneRound := (oneRound tab coeff iF2 iF3 capped P buffer saturated).
Hypothesis Dif : iF2 <> iF3.
Hypothesis L2 : (iF2 < nc tab)%nat.
Hypothesis L3 : (iF3 < nc tab)%nat.
Hypothesis Inv : invertible tab.

Lemma toRedox_ext t p lf o o' i : (forall j, (j < nc tab)%nat -> o j = o' j) -> (i < nc tab)%nat ->
  toRedox tab coeff iF2 iF3 capped t p lf o i = toRedox tab coeff iF2 iF3 capped t p lf o' i.
Proof.
  intros E Hi. rewrite !toRedox_reduced by auto.
  assert (EI : iron iF2 iF3 o = iron iF2 iF3 o') by (unfold iron; rewrite !E by auto; reflexivity).
  assert (ER : forall j, (j < nc tab)%nat -> reduced iF2 iF3 o j = reduced iF2 iF3 o' j) by (intros j Hj; unfold reduced; rewrite EI, (E j Hj); reflexivity).
  assert (EA : allFeO tab iF2 iF3 o = allFeO tab iF2 iF3 o') by (apply sum_ext; exact ER).
  assert (EC : comp tab coeff iF2 iF3 o = comp tab coeff iF2 iF3 o').
  { unfold comp. rewrite EA. f_equal. apply sum_ext. intros j Hj. now rewrite ER. }
  now rewrite EI, EA, EC, (ER i Hi), (E i Hi).
Qed.
Lemma toRedox_last t p lf t' p' lf' o i : (i < nc tab)%nat ->
  toRedox tab coeff iF2 iF3 capped t p lf (toRedox tab coeff iF2 iF3 capped t' p' lf' o) i = toRedox tab coeff iF2 iF3 capped t p lf o i.
Proof.
  intros Hi. rewrite (toRedox_reduced _ _ _ _ _ Dif t p lf (toRedox _ _ _ _ _ _ _ _ _)), (toRedox_reduced _ _ _ _ _ Dif t p lf o).
  rewrite C75_iron, allFeO_redox, comp_redox, reduced_redox by auto. cbv zeta.
  destruct (Req_EM_T (iron iF2 iF3 o) 0) as [|EI]; [reflexivity|]. destruct (Req_EM_T (allFeO tab iF2 iF3 o) 0) as [|EA]; [reflexivity|].
  destruct (Nat.eqb_spec i iF2) as [->|N2]; [reflexivity|]. destruct (Nat.eqb_spec i iF3) as [->|N3]; [reflexivity|].
  now rewrite C75_other_oxides.
Qed.

Lemma liqOxides_put r s o : (o < nc tab)%nat -> liqOxides tab (redoxLiquid tab r 0 s) 0 o = r (liqOxides tab s 0) o.
Proof.
  intros Ho. unfold liqOxides at 1, redoxLiquid. cbn [putLiq setLiqC liqC Nat.eqb andb].
  rewrite (sum_ext (nlc tab) _ (fun j => sum (nc tab) (fun o' => r (liqOxides tab s 0) o' * oxToLiq tab o' j) * liqToOx tab j o)).
  - apply Inv; auto.
  - intros j Hj. apply Nat.ltb_lt in Hj. now rewrite Hj.
Qed.
Lemma redox_twice r r' s : (forall o o', (forall j, (j < nc tab)%nat -> o j = o' j) -> forall j, (j < nc tab)%nat -> r o j = r o' j) ->
  (forall o j, (j < nc tab)%nat -> r (r' o) j = r o j) ->
  redoxLiquid tab r 0 (redoxLiquid tab r' 0 s) = redoxLiquid tab r 0 s.
Proof.
  intros Ext Las.
  assert (M : forall o, (o < nc tab)%nat -> r (liqOxides tab (redoxLiquid tab r' 0 s) 0) o = r (liqOxides tab s 0) o).
  { intros o Ho. etransitivity; [apply (Ext _ (r' (liqOxides tab s 0))); auto; intros; now apply liqOxides_put|]. now apply Las. }
  unfold redoxLiquid at 1 3. cbv zeta. unfold putLiq, addBulk, setLiqC, setBulk. cbn [hasLiquid nLiq liqC nSol solC bulk fracS fracL fracMass oxy fo2On redoxLiquid putLiq addBulk setLiqC setBulk].
  f_equal.
  - extensionality nl. extensionality j. destruct (Nat.eqb_spec nl 0) as [->|N]; cbn [andb]; [|reflexivity].
    destruct (Nat.ltb_spec j (nlc tab)) as [Hj|Hj]; [|reflexivity]. apply sum_ext. intros o Ho. now rewrite M.
  - extensionality o. destruct (Nat.ltb_spec o (nc tab)) as [Ho|Ho]; [|reflexivity]. rewrite M, liqOxides_put by auto. ring.
Qed.
Lemma changeTP_twice x y : changeTP (setT x (changeTP y)) = changeTP (setT x y).
Proof.
  unfold LiquidusModel.changeTP. cbn [setT matter T fo2 solidMass tabT]. destruct (fo2On (matter y)) eqn:E.
  - cbn [matter T fo2 solidMass tabT redoxLiquid putLiq addBulk setLiqC setBulk fo2On]. rewrite E. cbn [matter T fo2 solidMass tabT]. f_equal.
    apply redox_twice.
    + intros o o' Eo j Hj. now apply toRedox_ext.
    + intros o j Hj. now apply toRedox_last.
  - cbn [matter]. rewrite E. reflexivity.
Qed.
Lemma setT_id y : setT (T y) y = y. Proof. now destruct y. Qed.

(** the answer at temperature x of the system y *)
Definition answer (y : LSys) (x : R) : bool := testSat (changeTP (setT x y)).
Lemma answer_same x z y : answer (setT z (changeTP y)) x = answer y x.
Proof. unfold answer. change (setT x (setT z (changeTP y))) with (setT x (changeTP y)). now rewrite changeTP_twice. Qed.
Lemma answer_here y : testSat (changeTP y) = answer y (T y).
Proof. unfold answer. now rewrite setT_id. Qed.
Lemma answer_fun z y : answer (setT z (changeTP y)) = answer y.
Proof. extensionality x. apply answer_same. Qed.

(** ** Refinement ends in at most sixteen tests *)
Lemma stages : forall d k c y b Tp, (k + d = 8)%nat -> curStep c = CHECK_CONDITION -> unfit y = false ->
  tState c = Some b -> Rabs (tInterval c) = width k -> T y = Tp + tInterval c ->
  answer y Tp = b -> answer y (Tp + 2 * tInterval c) = negb b ->
  exists l s', search (c, y) l s' /\ (length l <= 2 * S d)%nat.
Proof.
  induction d as [|d IH]; intros k c y b Tp Hk Hc Hu Ht Hw HT A0 A2.
  - assert (k = 8%nat) by lia. subst k. clear Hk.
    destruct (Bool.bool_dec (answer y (T y)) b) as [E|E].
    + eexists _, _. split. 1: eapply round_go; [exact Hc|exact Hu|apply (round_same _ _ _ _ _ _ _ _ c y b 8 Ht Hw (le_n _)); now rewrite answer_here|].
      1: apply round_end; [reflexivity|exact (eq_trans (changeTP_unfit _ _ _ _ _ _ _ y) Hu)|]. 2: cbn [length]; lia.
      apply (round_last _ _ _ _ _ _ _ _ (mkLCtl CHECK_CONDITION b (Some b) (tInterval c) (status c)) _ b eq_refl Hw).
      rewrite answer_here, answer_same. cbn [T setT]. rewrite HT. rewrite <- A2. f_equal. ring.
    + eexists _, _. split. 1: apply round_end; [exact Hc|exact Hu|]. 2: cbn [length]; lia.
      apply (round_last _ _ _ _ _ _ _ _ c y b Ht Hw). rewrite answer_here. destruct (answer y (T y)), b; auto; congruence.
  - destruct (Bool.bool_dec (answer y (T y)) b) as [E|E].
    + set (c1 := mkLCtl CHECK_CONDITION b (Some b) (tInterval c) (status c)). set (y1 := setT (T y + tInterval c) (changeTP y)).
      assert (R1 : oneRound c y = ((c1, y1), false)) by (apply (round_same _ _ _ _ _ _ _ _ c y b k Ht Hw ltac:(lia)); now rewrite answer_here).
      assert (U1 : unfit y1 = false) by exact (eq_trans (changeTP_unfit _ _ _ _ _ _ _ y) Hu).
      assert (F1 : testSat (changeTP y1) = negb b) by (rewrite answer_here; unfold y1; rewrite answer_same; cbn [T setT]; rewrite HT, <- A2; f_equal; ring).
      pose proof (round_flip tab coeff iF2 iF3 capped P buffer saturated c1 y1 b k eq_refl Hw ltac:(lia) F1) as R2. cbn [tInterval c1 status] in R2.
      destruct (IH (S k) (mkLCtl CHECK_CONDITION (negb b) (Some (negb b)) (tInterval c * - (1 / 2)) (status c)) (setT (T y1 + tInterval c * - (1 / 2)) (changeTP y1)) (negb b) (T y1))
        as (l & s' & S' & Ll).
      { lia. } { reflexivity. } { exact (eq_trans (changeTP_unfit _ _ _ _ _ _ _ y1) U1). } { reflexivity. }
      { cbn [tInterval]. rewrite half_abs, Hw, width_S. reflexivity. } { reflexivity. }
      { rewrite answer_same. now rewrite <- answer_here. }
      { cbn [tInterval]. rewrite answer_same. unfold y1. rewrite answer_same. cbn [T setT].
        replace (T y + tInterval c + 2 * (tInterval c * - (1 / 2))) with (T y) by field. rewrite E. now destruct b. }
      eexists _, s'. split; [eapply round_go; [exact Hc|exact Hu|exact R1|]; eapply round_go; [reflexivity|exact U1|exact R2|exact S']|]. cbn [length]. lia.
    + assert (F : testSat (changeTP y) = negb b) by (rewrite answer_here; destruct (answer y (T y)), b; auto; congruence).
      pose proof (round_flip tab coeff iF2 iF3 capped P buffer saturated c y b k Ht Hw ltac:(lia) F) as R2.
      destruct (IH (S k) (mkLCtl CHECK_CONDITION (negb b) (Some (negb b)) (tInterval c * - (1 / 2)) (status c)) (setT (T y + tInterval c * - (1 / 2)) (changeTP y)) (negb b) (T y))
        as (l & s' & S' & Ll).
      { lia. } { reflexivity. } { exact (eq_trans (changeTP_unfit _ _ _ _ _ _ _ y) Hu). } { reflexivity. }
      { cbn [tInterval]. rewrite half_abs, Hw, width_S. reflexivity. } { reflexivity. }
      { rewrite answer_same. now rewrite <- answer_here. }
      { cbn [tInterval]. rewrite answer_same. rewrite HT.
        replace (Tp + tInterval c + 2 * (tInterval c * - (1 / 2))) with Tp by field. rewrite A0. now destruct b. }
      eexists _, s'. split; [eapply round_go; [exact Hc|exact Hu|exact R2|exact S']|]. cbn [length]. lia.
Qed.

(** ** The coarse scan *)
Lemma coarse : forall r c y b Tp, curStep c = CHECK_CONDITION -> unfit y = false ->
  tState c = Some b -> Rabs (tInterval c) = width 0 -> T y = Tp + tInterval c -> answer y Tp = b ->
  (forall i, (i < r)%nat -> answer y (T y + INR i * tInterval c) = b) -> answer y (T y + INR r * tInterval c) = negb b ->
  exists l s', search (c, y) l s' /\ (length l <= r + 17)%nat.
Proof.
  induction r as [|r IH]; intros c y b Tp Hc Hu Ht Hw HT A0 AI AN.
  - assert (F : testSat (changeTP y) = negb b) by (rewrite answer_here, <- AN; f_equal; cbn [INR]; ring).
    pose proof (round_flip tab coeff iF2 iF3 capped P buffer saturated c y b 0 Ht Hw ltac:(lia) F) as R2.
    destruct (stages 7 1 (mkLCtl CHECK_CONDITION (negb b) (Some (negb b)) (tInterval c * - (1 / 2)) (status c)) (setT (T y + tInterval c * - (1 / 2)) (changeTP y)) (negb b) (T y))
      as (l & s' & S' & Ll).
    { lia. } { reflexivity. } { exact (eq_trans (changeTP_unfit _ _ _ _ _ _ _ y) Hu). } { reflexivity. }
    { cbn [tInterval]. rewrite half_abs, Hw, width_S. reflexivity. } { reflexivity. }
    { rewrite answer_same. now rewrite <- answer_here. }
    { cbn [tInterval]. rewrite answer_same. rewrite HT.
      replace (Tp + tInterval c + 2 * (tInterval c * - (1 / 2))) with Tp by field. rewrite A0. now destruct b. }
    eexists _, s'. split; [eapply round_go; [exact Hc|exact Hu|exact R2|exact S']|]. cbn [length]. lia.
  - assert (E : answer y (T y) = b) by (rewrite <- (AI 0%nat ltac:(lia)); f_equal; cbn [INR]; ring).
    assert (R1 : oneRound c y = ((mkLCtl CHECK_CONDITION b (Some b) (tInterval c) (status c), setT (T y + tInterval c) (changeTP y)), false))
      by (apply (round_same _ _ _ _ _ _ _ _ c y b 0 Ht Hw ltac:(lia)); now rewrite answer_here).
    destruct (IH (mkLCtl CHECK_CONDITION b (Some b) (tInterval c) (status c)) (setT (T y + tInterval c) (changeTP y)) b (T y)) as (l & s' & S' & Ll).
    { reflexivity. } { exact (eq_trans (changeTP_unfit _ _ _ _ _ _ _ y) Hu). } { reflexivity. } { exact Hw. } { reflexivity. }
    { now rewrite answer_same. }
    { intros i Hi. rewrite answer_same. cbn [T setT tInterval]. rewrite <- (AI (S i) ltac:(lia)). f_equal. rewrite S_INR. ring. }
    { rewrite answer_same. cbn [T setT tInterval]. rewrite <- AN. f_equal. rewrite S_INR. ring. }
    eexists _, s'. split; [eapply round_go; [exact Hc|exact Hu|exact R1|exact S']|]. cbn [length]. lia.
Qed.
Lemma coarse_never : forall n l, length l = n -> forall c y b s', curStep c = CHECK_CONDITION -> unfit y = false ->
  tState c = Some b -> Rabs (tInterval c) = width 0 -> (forall i, answer y (T y + INR i * tInterval c) = b) ->
  ~ search (c, y) l s'.
Proof.
  induction n as [n IH] using lt_wf_ind. intros l Hl c y b s' Hc Hu Ht Hw AI S.
  assert (E : answer y (T y) = b) by (rewrite <- (AI 0%nat); f_equal; cbn [INR]; ring).
  assert (R1 : oneRound c y = ((mkLCtl CHECK_CONDITION b (Some b) (tInterval c) (status c), setT (T y + tInterval c) (changeTP y)), false))
    by (apply (round_same _ _ _ _ _ _ _ _ c y b 0 Ht Hw ltac:(lia)); now rewrite answer_here).
  destruct (round_back _ _ _ _ _ _ _ _ c y l s' Hc Hu S) as (l1 & -> & C). clear S. rewrite R1 in C.
  destruct C as [(C & _)|(s1 & C & S1)]; [congruence|]. injection C as <-. cbn [length] in Hl.
  refine (IH (length l1) ltac:(lia) l1 eq_refl (mkLCtl CHECK_CONDITION b (Some b) (tInterval c) (status c)) (setT (T y + tInterval c) (changeTP y)) b s' eq_refl (eq_trans (changeTP_unfit _ _ _ _ _ _ _ y) Hu) eq_refl Hw _ S1).
  intros i. rewrite answer_same. cbn [T setT tInterval]. rewrite <- (AI (S i)). f_equal. rewrite S_INR. ring.
Qed.
End Ends.
