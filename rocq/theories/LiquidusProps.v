(** The search for the liquidus: what a result means, when the search ends, what it leaves behind. *)
From Coq Require Import Reals List Bool Arith ZArith Lia Lra FunctionalExtensionality.
From Verif Require Import MassModel MassSpec MassProofs RedoxModel RedoxProps SatModel SatProps LiquidusModel LiquidusProofs.
Import ListNotations.
Local Open Scope R_scope.

Section Props.
Variable tab : Tab.
Variable coeff : nat -> R.
Variables iF2 iF3 : nat.
Variable capped : bool.
Variable P : R.
Variable buffer : R -> R.
Variable saturated : R -> R -> R -> St -> bool.
Notation changeTP := (changeTP tab coeff iF2 iF3 capped P buffer).
Notation liquidus := (liquidus tab coeff iF2 iF3 capped P buffer saturated).
Notation search := (search tab coeff iF2 iF3 capped P buffer saturated).
Notation testSat := (testSat saturated).

(** ** Specification *)
(** no search is under way: the state at program start *)
Definition idle (c : LCtl) : Prop := curStep c = CHECK_CONDITION /\ tState c = None.
(** the matter of the system brought to the oxygen buffer at temperature t, if there is a buffer *)
Definition buffered (s : St) (t : R) : St :=
  if fo2On s then redoxLiquid tab (toRedox tab coeff iF2 iF3 capped t P (buffer t)) 0 s else s.
(** the answer of the saturation test on the system y at temperature t, all tables computed for t *)
Definition saturatedAt (y : LSys) (t : R) : bool :=
  saturated t t (if fo2On (matter y) then buffer t else fo2 y) (buffered (matter y) t).
(** 0.1953125 degrees *)
Definition resolution : R := 50 / 256.
Lemma width8 : width 8 = resolution. Proof. unfold width, resolution. cbn [pow]. lra. Qed.
Lemma saturatedAt_answer y t : saturatedAt y t = answer tab coeff iF2 iF3 capped P buffer saturated y t.
Proof. unfold saturatedAt, answer, LiquidusModel.testSat, LiquidusModel.changeTP, buffered. cbn [setT matter T fo2]. destruct (fo2On (matter y)); reflexivity. Qed.
Lemma testSat_here y : testSat (changeTP y) = saturatedAt y (T y).
Proof. rewrite saturatedAt_answer. apply answer_here. Qed.
Lemma changeTP_matter y : matter (changeTP y) = buffered (matter y) (T y).
Proof. unfold LiquidusModel.changeTP, buffered. now destruct (fo2On (matter y)). Qed.

(** ** C134: the four ways a search ends, and what a success means *)
Theorem C134_outcomes c y l s' : idle c -> search (c, y) l s' ->
  let c' := fst s' in let y' := snd s' in
  (status c' = LIQUIDUS_MULTIPLE /\ (0 < solidMass y \/ (1 < nLiq (matter y))%nat) /\ l = [] /\ y' = y) \/
  (exists b, l = [(T y, buffered (matter y) (T y), b)] /\ T y' = T y + (if b then 50 else - (50)) /\
     ((status c' = LIQUIDUS_MAX_T /\ 2500 < T y') \/ (status c' = LIQUIDUS_MIN_T /\ T y' < 500))) \/
  (status c' = LIQUIDUS_SUCCESS /\ idle c' /\
   exists l0 Tq mq q, l = l0 ++ [(Tq, mq, q); (T y', matter y', negb q)] /\ Rabs (T y' - Tq) = resolution).
Proof.
  intros (Hc & Hn) S c' y'. destruct (unfit y) eqn:U.
  - left. inversion S as [a b E|a b l0 d E S2]; subst; cbn [LiquidusModel.liquidus] in E; rewrite Hc, U in E; [|congruence].
    injection E as <-. unfold c', y'. cbn [fst snd status]. split; [reflexivity|split; [|split; [|reflexivity]]].
    + unfold unfit in U. apply orb_true_iff in U. destruct U as [U|U]; [left; destruct (Rlt_dec 0 (solidMass y)); [assumption|discriminate]|right; now apply Nat.ltb_lt].
    + unfold LiquidusModel.tests. cbn [fst]. now rewrite Hc.
  - right. destruct (round_back _ _ _ _ _ _ _ _ c y l s' Hc U S) as (l1 & -> & C).
    pose proof (round_first tab coeff iF2 iF3 capped P buffer saturated c y Hn) as R1. cbv zeta in R1. rewrite R1 in C. clear R1.
    unfold oneTest. set (b := testSat (changeTP y)) in *.
    destruct (Rlt_dec 2500 (T y + firstInt b)) as [G|G]; [|destruct (Rlt_dec (T y + firstInt b) 500) as [G2|G2]].
    + left. destruct C as [(C & ->)|(s1 & C & _)]; [|congruence]. injection C as <-. unfold c', y'. cbn [fst snd status T setT].
      exists b. rewrite changeTP_matter. split; [reflexivity|split; [reflexivity|left; auto]].
    + left. destruct C as [(C & ->)|(s1 & C & _)]; [|congruence]. injection C as <-. unfold c', y'. cbn [fst snd status T setT].
      exists b. rewrite changeTP_matter. split; [reflexivity|split; [reflexivity|right; auto]].
    + right. destruct C as [(C & _)|(s1 & C & S1)]; [congruence|]. injection C as <-.
      destruct (under_way tab coeff iF2 iF3 capped P buffer saturated (length l1) l1 eq_refl
        (mkLCtl CHECK_CONDITION b (Some b) (firstInt b) (status c)) (setT (T y + firstInt b) (changeTP y)) s' b 0 (T y) (matter (changeTP y))
        eq_refl (eq_trans (changeTP_unfit _ _ _ _ _ _ _ y) U) eq_refl (firstInt_abs b) ltac:(lia) eq_refl S1)
        as (A1 & A2 & A3 & A4 & l0 & Tq & mq & m & q & EQ & EM & A).
      split; [exact A1|split; [split; assumption|]]. exists l0, Tq, mq, q. subst m. rewrite <- width8. split; [exact EQ|exact A].
Qed.
(** a temperature reported as the liquidus: the last two tests, 0.1953125 degrees apart, gave opposite answers, and the
    last one was made at the temperature and on the liquid reported *)
Theorem C134_bracket c y l c' y' : idle c -> search (c, y) l (c', y') -> status c' = LIQUIDUS_SUCCESS ->
  exists l0 Tq mq q, l = l0 ++ [(Tq, mq, q); (T y', matter y', negb q)] /\ Rabs (T y' - Tq) = resolution.
Proof.
  intros I S E. destruct (C134_outcomes c y l _ I S) as [(A & _)|[(b & _ & _ & [(A & _)|(A & _)])|(_ & _ & A)]]; cbn [fst snd] in *; try (rewrite E in A; discriminate). exact A.
Qed.

(** ** Searches on tables whose conversions are inverse to each other *)
Hypothesis Dif : iF2 <> iF3.
Hypothesis L2 : (iF2 < nc tab)%nat.
Hypothesis L3 : (iF3 < nc tab)%nat.
Hypothesis Inv : invertible tab.

(** whatever temperatures have been tested, the system can be brought to a temperature as if none had *)
Definition alike (y y0 : LSys) : Prop := forall t, changeTP (setT t y) = changeTP (setT t y0).
Lemma alike_step c y s' b y0 : liquidus (c, y) = (s', b) -> alike y y0 -> alike (snd s') y0.
Proof.
  intros E A. unfold LiquidusModel.liquidus in E. destruct (curStep c).
  - destruct (unfit y); injection E as <- <-; exact A.
  - injection E as <- <-. cbn [snd]. intros t. rewrite (changeTP_twice tab coeff iF2 iF3 capped P buffer Dif L2 L3 Inv). apply A.
  - injection E as <- <-. exact A.
  - unfold updateSystem in E. destruct (tState c) as [b0|].
    + destruct (Bool.eqb b0 (hasSuper c)); match type of E with (if ?d then _ else _) = _ => destruct d end; injection E as <- <-; exact A.
    + repeat match type of E with (if ?d then _ else _) = _ => destruct d end; injection E as <- <-; exact A.
Qed.
Lemma alike_search s l s' y0 : search s l s' -> alike (snd s) y0 -> alike (snd s') y0.
Proof.
  induction 1 as [s s' E|s s' l s'' E S IH]; intros A.
  - destruct s as (c, y). exact (alike_step c y s' true y0 E A).
  - apply IH. destruct s as (c, y). exact (alike_step c y s' false y0 E A).
Qed.
Lemma success_changed c y l c' y' : idle c -> search (c, y) l (c', y') -> status c' = LIQUIDUS_SUCCESS -> exists y1, y' = changeTP y1 /\ unfit y1 = false.
Proof.
  intros (Hc & Hn) S E. destruct (unfit y) eqn:U.
  - destruct (C134_outcomes c y l _ (conj Hc Hn) S) as [(A & _)|[(b & _ & _ & [(A & _)|(A & _)])|(_ & _ & A)]]; cbn [fst snd] in *; try (rewrite E in A; discriminate).
    inversion S as [a b F|a b l0 d F S2]; subst; cbn [LiquidusModel.liquidus] in F; rewrite Hc, U in F; [|congruence].
    injection F as <- <-. cbn [status] in E. discriminate.
  - destruct (round_back _ _ _ _ _ _ _ _ c y l _ Hc U S) as (l1 & -> & C).
    pose proof (round_first tab coeff iF2 iF3 capped P buffer saturated c y Hn) as R1. cbv zeta in R1. rewrite R1 in C. clear R1.
    set (b := testSat (changeTP y)) in *.
    destruct (Rlt_dec 2500 (T y + firstInt b)) as [G|G]; [|destruct (Rlt_dec (T y + firstInt b) 500) as [G2|G2]].
    + destruct C as [(C & ->)|(s1 & C & _)]; [|congruence]. injection C as <- <-. discriminate.
    + destruct C as [(C & ->)|(s1 & C & _)]; [|congruence]. injection C as <- <-. discriminate.
    + destruct C as [(C & _)|(s1 & C & S1)]; [congruence|]. injection C as <-.
      destruct (under_way tab coeff iF2 iF3 capped P buffer saturated (length l1) l1 eq_refl
        (mkLCtl CHECK_CONDITION b (Some b) (firstInt b) (status c)) (setT (T y + firstInt b) (changeTP y)) (c', y') b 0 (T y) (matter (changeTP y))
        eq_refl (eq_trans (changeTP_unfit _ _ _ _ _ _ _ y) U) eq_refl (firstInt_abs b) ltac:(lia) eq_refl S1)
        as (_ & _ & _ & A4 & _). exact A4.
Qed.

(** ** C135: the state a successful search leaves *)
(** it is the system given, brought to the buffer at the temperature reported; the temperatures tried in between leave
    no trace, and the tables are those of the temperature reported *)
Theorem C135_state c y l c' y' : idle c -> search (c, y) l (c', y') -> status c' = LIQUIDUS_SUCCESS ->
  matter y' = buffered (matter y) (T y') /\ tabT y' = T y' /\ fo2 y' = (if fo2On (matter y) then buffer (T y') else fo2 y) /\ solidMass y' = solidMass y.
Proof.
  intros I S E. destruct (success_changed c y l c' y' I S E) as (y1 & E1 & _).
  assert (A : alike y' y) by (apply (alike_search (c, y) l (c', y') y S); intros t; reflexivity).
  assert (F : y' = changeTP (setT (T y') y)).
  { rewrite <- (A (T y')), setT_id. rewrite E1 at 2. rewrite <- (setT_id (changeTP y1)), (changeTP_T _ _ _ _ _ _ _ y1).
    rewrite (changeTP_twice tab coeff iF2 iF3 capped P buffer Dif L2 L3 Inv), setT_id. exact E1. }
  set (t := T y') in *. clearbody t. rewrite F. unfold LiquidusModel.changeTP, buffered. cbn [setT matter T fo2 solidMass tabT].
  destruct (fo2On (matter y)); cbn [matter T fo2 solidMass tabT]; auto.
Qed.
(** matter: every oxide but those of iron, and all the iron, in the bulk composition and in the liquid *)
Theorem C135_matter s t : let s' := buffered s t in
  (forall o, (o < nc tab)%nat -> bulk s' o - liqOxides tab s' 0 o = bulk s o - liqOxides tab s 0 o) /\
  (forall o, (o < nc tab)%nat -> o <> iF2 -> o <> iF3 -> bulk s' o = bulk s o) /\
  bulk s' iF2 + 2 * bulk s' iF3 = bulk s iF2 + 2 * bulk s iF3.
Proof.
  intros s'. unfold s', buffered. destruct (fo2On s); [|repeat split; auto; intros; lra].
  set (r := toRedox tab coeff iF2 iF3 capped t P (buffer t)).
  assert (B : forall o, (o < nc tab)%nat -> bulk (redoxLiquid tab r 0 s) o = bulk s o - liqOxides tab s 0 o + r (liqOxides tab s 0) o).
  { intros o Ho. unfold redoxLiquid. cbn [putLiq addBulk setLiqC setBulk bulk]. apply Nat.ltb_lt in Ho. rewrite Ho. ring. }
  split; [|split].
  - intros o Ho. rewrite B, (liqOxides_put tab Inv) by auto. ring.
  - intros o Ho N2 N3. rewrite B by auto. unfold r. rewrite C75_other_oxides by auto. ring.
  - rewrite !B by auto. pose proof (C75_iron tab coeff iF2 iF3 capped Dif t P (buffer t) (liqOxides tab s 0)) as Q. unfold iron in Q. fold r in Q. lra.
Qed.
(** and the liquid left is at the oxygen fugacity of the buffer *)
Theorem C135_fugacity s t : fo2On s = true -> 0 < liqOxides tab s 0 iF2 + 2 * liqOxides tab s 0 iF3 -> allFeO tab iF2 iF3 (liqOxides tab s 0) <> 0 ->
  fO2of tab coeff iF2 iF3 capped t P (toRedox tab coeff iF2 iF3 capped t P (buffer t) (liqOxides tab s 0)) = buffer t /\
  forall o, (o < nc tab)%nat -> liqOxides tab (buffered s t) 0 o = toRedox tab coeff iF2 iF3 capped t P (buffer t) (liqOxides tab s 0) o.
Proof.
  intros F H1 H2. split; [now apply C76_round_trip|]. intros o Ho. unfold buffered. rewrite F. now apply liqOxides_put.
Qed.

(** ** C136: when the search ends *)
(** the direction of the scan *)
Definition stepFor (b : bool) : R := if b then 50 else - (50).
Definition withinLimits (y : LSys) : Prop := 500 <= T y + stepFor (saturatedAt y (T y)) <= 2500.
Lemma least (f : nat -> bool) (b : bool) : forall n, f n = negb b -> exists r, (r <= n)%nat /\ f r = negb b /\ forall i, (i < r)%nat -> f i = b.
Proof.
  induction n as [n IH] using lt_wf_ind. intros H.
  destruct (Exists_dec (fun i => f i = negb b) (seq 0 n)) as [E|E]. { intros i. apply Bool.bool_dec. }
  - apply Exists_exists in E. destruct E as (i & Hi & F). apply in_seq in Hi. destruct (IH i ltac:(lia) F) as (r & A & B & C).
    exists r. split; [lia|auto].
  - exists n. split; [lia|split; [exact H|]]. intros i Hi. destruct (Bool.bool_dec (f i) b) as [|N]; [assumption|].
    exfalso. apply E. apply Exists_exists. exists i. split; [apply in_seq; lia|]. destruct (f i), b; auto; congruence.
Qed.
Lemma first_go c y : idle c -> unfit y = false -> withinLimits y -> let b := saturatedAt y (T y) in
  oneRound tab coeff iF2 iF3 capped P buffer saturated c y = ((mkLCtl CHECK_CONDITION b (Some b) (stepFor b) (status c), setT (T y + stepFor b) (changeTP y)), false).
Proof.
  intros (Hc & Hn) U W b. pose proof (round_first tab coeff iF2 iF3 capped P buffer saturated c y Hn) as R1. cbv zeta in R1. rewrite R1. clear R1.
  unfold withinLimits in W. rewrite testSat_here. fold b. fold b in W. change (firstInt b) with (stepFor b).
  destruct (Rlt_dec 2500 (T y + stepFor b)); [lra|]. destruct (Rlt_dec (T y + stepFor b) 500); [lra|reflexivity].
Qed.
(** a change of the answer within m steps of 50 degrees: at most m + 17 tests *)
Theorem C136_ends c y m : idle c -> unfit y = false -> withinLimits y ->
  saturatedAt y (T y + INR m * stepFor (saturatedAt y (T y))) <> saturatedAt y (T y) ->
  exists l c' y', search (c, y) l (c', y') /\ status c' = LIQUIDUS_SUCCESS /\ (length l <= m + 17)%nat.
Proof.
  intros I U W H. set (b := saturatedAt y (T y)) in *.
  assert (Hm : exists n, m = S n). { destruct m as [|n]; [|eauto]. exfalso. apply H. cbn [INR]. replace (T y + 0 * stepFor b) with (T y) by ring. reflexivity. }
  destruct Hm as (n & ->).
  destruct (least (fun r => saturatedAt y (T y + INR (S r) * stepFor b)) b n) as (r & Hr & F & G).
  { destruct (saturatedAt y (T y + INR (S n) * stepFor b)), b; auto; congruence. }
  pose proof (first_go c y I U W) as R1. cbv zeta in R1. fold b in R1.
  set (y1 := setT (T y + stepFor b) (changeTP y)) in *.
  assert (AN : forall t, answer tab coeff iF2 iF3 capped P buffer saturated y1 t = saturatedAt y t).
  { intros t. unfold y1. rewrite (answer_same tab coeff iF2 iF3 capped P buffer saturated Dif L2 L3 Inv). symmetry. apply saturatedAt_answer. }
  destruct (coarse tab coeff iF2 iF3 capped P buffer saturated Dif L2 L3 Inv r (mkLCtl CHECK_CONDITION b (Some b) (stepFor b) (status c)) y1 b (T y)) as (l & s' & S & Ll).
  { reflexivity. } { exact (eq_trans (changeTP_unfit _ _ _ _ _ _ _ y) U). } { reflexivity. } { exact (firstInt_abs b). } { reflexivity. }
  { rewrite AN. reflexivity. }
  { intros i Hi. rewrite AN. cbn [tInterval]. etransitivity; [|exact (G i Hi)]. cbv beta. f_equal. unfold y1. cbn [T setT]. rewrite S_INR. ring. }
  { rewrite AN. cbn [tInterval]. etransitivity; [|exact F]. cbv beta. f_equal. unfold y1. cbn [T setT]. rewrite S_INR. ring. }
  destruct s' as (c', y'). assert (SS := round_go tab coeff iF2 iF3 capped P buffer saturated c y _ l (c', y') (proj1 I) U R1 S).
  exists (oneTest tab coeff iF2 iF3 capped P buffer saturated y :: l), c', y'. split; [exact SS|split; [|cbn [length]; lia]].
  destruct (under_way tab coeff iF2 iF3 capped P buffer saturated (length l) l eq_refl
        (mkLCtl CHECK_CONDITION b (Some b) (firstInt b) (status c)) y1 (c', y') b 0 (T y) (matter (changeTP y))
        eq_refl (eq_trans (changeTP_unfit _ _ _ _ _ _ _ y) U) eq_refl (firstInt_abs b) ltac:(lia) eq_refl S) as (A & _). exact A.
Qed.
(** no change at any of them: the search never returns *)
Theorem C136_never c y : idle c -> unfit y = false -> withinLimits y ->
  (forall m, saturatedAt y (T y + INR m * stepFor (saturatedAt y (T y))) = saturatedAt y (T y)) ->
  ~ exists l s', search (c, y) l s'.
Proof.
  intros I U W H (l & s' & S). set (b := saturatedAt y (T y)) in *.
  destruct (round_back _ _ _ _ _ _ _ _ c y l s' (proj1 I) U S) as (l1 & -> & C).
  pose proof (first_go c y I U W) as R1. cbv zeta in R1. fold b in R1. rewrite R1 in C. destruct C as [(C & _)|(s1 & C & S1)]; [congruence|]. injection C as <-.
  refine (coarse_never tab coeff iF2 iF3 capped P buffer saturated Dif L2 L3 Inv (length l1) l1 eq_refl _ _ b s' _ _ _ _ _ S1).
  - reflexivity.
  - exact (eq_trans (changeTP_unfit _ _ _ _ _ _ _ y) U).
  - reflexivity.
  - exact (firstInt_abs b).
  - intros i. rewrite (answer_same tab coeff iF2 iF3 capped P buffer saturated Dif L2 L3 Inv), <- saturatedAt_answer. cbn [tInterval T setT].
    etransitivity; [|exact (H (Datatypes.S i))]. f_equal. rewrite S_INR. ring.
Qed.

(** ** C137: accuracy *)
Lemma tests_answer : forall s l s', search s l s' -> forall y0, alike (snd s) y0 ->
  (curStep (fst s) = CHECK_SATURATION -> snd s = changeTP (setT (T (snd s)) y0)) ->
  forall t m q, In (t, m, q) l -> q = saturatedAt y0 t.
Proof.
  assert (TS : forall s y0, (curStep (fst s) = CHECK_SATURATION -> snd s = changeTP (setT (T (snd s)) y0)) ->
            forall t m q, In (t, m, q) (tests saturated s) -> q = saturatedAt y0 t).
  { intros s y0 H t m q HI. unfold LiquidusModel.tests in HI. destruct (curStep (fst s)) eqn:E; try contradiction.
    destruct HI as [HI|[]]. injection HI as <- <- <-. rewrite (H eq_refl) at 1. rewrite saturatedAt_answer. reflexivity. }
  induction 1 as [s s' E|s s' l s'' E S IH]; intros y0 A H t m q HI.
  - exact (TS s y0 H t m q HI).
  - apply in_app_or in HI. destruct HI as [HI|HI]; [exact (TS s y0 H t m q HI)|].
    refine (IH y0 _ _ t m q HI).
    + destruct s as (c, y). exact (alike_step c y s' false y0 E A).
    + intros C. destruct s as (c, y). cbn [fst snd] in *. unfold LiquidusModel.liquidus in E. destruct (curStep c) eqn:Ec.
      * destruct (unfit y); [discriminate|]. injection E as <-. discriminate.
      * injection E as <-. cbn [snd]. rewrite (changeTP_T _ _ _ _ _ _ _ y), <- A. now rewrite setT_id.
      * injection E as <-. discriminate.
      * unfold updateSystem in E. destruct (tState c) as [b0|].
        { destruct (Bool.eqb b0 (hasSuper c)); match type of E with (if ?d then _ else _) = _ => destruct d end; try discriminate; injection E as <-; discriminate. }
        { repeat match type of E with (if ?d then _ else _) = _ => destruct d end; try discriminate; injection E as <-; discriminate. }
Qed.
(** a liquid that is supersaturated below TL and not above: the temperature found is within 0.1953125 degrees of TL, after
    at most 18 + |T - TL|/50 tests *)
Theorem C137_accuracy c y TL : idle c -> unfit y = false -> withinLimits y ->
  (forall t, t < TL -> saturatedAt y t = true) -> (forall t, TL < t -> saturatedAt y t = false) ->
  exists l c' y', search (c, y) l (c', y') /\ status c' = LIQUIDUS_SUCCESS /\ Rabs (T y' - TL) <= resolution /\
    INR (length l) <= 18 + Rabs (T y - TL) / 50.
Proof.
  intros I U W Lo Hi. set (b := saturatedAt y (T y)).
  set (d := Rabs (T y - TL) / 50). assert (D0 : 0 <= d) by (unfold d; pose proof (Rabs_pos (T y - TL)); lra).
  destruct (archimed d) as (Ar1 & Ar2). set (m := Z.to_nat (up d)).
  assert (Em : INR m = IZR (up d)). { unfold m. rewrite INR_IZR_INZ, Z2Nat.id; [reflexivity|]. apply le_IZR. lra. }
  destruct (C136_ends c y m I U W) as (l & c' & y' & S & E & Ll).
  { fold b. intros K. assert (d * 50 = Rabs (T y - TL)) by (unfold d; field). destruct b eqn:Eb; unfold stepFor in K.
    - assert (T y <= TL). { destruct (Rle_dec (T y) TL); [assumption|]. unfold b in Eb. rewrite Hi in Eb by lra. discriminate. }
      rewrite Rabs_left1 in H by lra. rewrite Hi in K; [discriminate|]. rewrite Em. lra.
    - assert (TL <= T y). { destruct (Rle_dec TL (T y)); [assumption|]. unfold b in Eb. rewrite Lo in Eb by lra. discriminate. }
      rewrite Rabs_right in H by lra. rewrite Lo in K; [discriminate|]. rewrite Em. lra. }
  exists l, c', y'. split; [exact S|split; [exact E|split]].
  - destruct (C134_bracket c y l c' y' I S E) as (l0 & Tq & mq & q & EL & Q).
    assert (A1 : q = saturatedAt y Tq).
    { refine (tests_answer _ _ _ S y _ _ Tq mq q _); [intros t; reflexivity|intros C; cbn [fst] in C; rewrite (proj1 I) in C; discriminate|].
      rewrite EL. apply in_or_app. right. left. reflexivity. }
    assert (A2 : negb q = saturatedAt y (T y')).
    { refine (tests_answer _ _ _ S y _ _ (T y') (matter y') (negb q) _); [intros t; reflexivity|intros C; cbn [fst] in C; rewrite (proj1 I) in C; discriminate|].
      rewrite EL. apply in_or_app. right. right. left. reflexivity. }
    unfold resolution in *. destruct q; cbn [negb] in A2.
    + assert (Tq <= TL) by (destruct (Rle_dec Tq TL); [assumption|]; rewrite Hi in A1 by lra; discriminate).
      assert (TL <= T y') by (destruct (Rle_dec TL (T y')); [assumption|]; rewrite Lo in A2 by lra; discriminate).
      rewrite Rabs_right in Q by lra. rewrite Rabs_right by lra. lra.
    + assert (TL <= Tq) by (destruct (Rle_dec TL Tq); [assumption|]; rewrite Lo in A1 by lra; discriminate).
      assert (T y' <= TL) by (destruct (Rle_dec (T y') TL); [assumption|]; rewrite Hi in A2 by lra; discriminate).
      rewrite Rabs_left1 in Q by lra. rewrite Rabs_left1 by lra. lra.
  - apply le_INR in Ll. rewrite plus_INR, Em in Ll. replace (INR 17) with 17 in Ll by (cbn; lra). fold d. lra.
Qed.
End Props.

(** ** C136, refuted in general: with every phase suppressed no temperature is supersaturated, and the search never returns *)
Section Suppressed.
Variable tab : Tab.
Variable coeff : nat -> R.
Variables iF2 iF3 : nat.
Variable capped : bool.
Variable P : R.
Variable buffer : R -> R.
(** the inputs of the saturation test, as a function of the temperature of the tables, the temperature, fO2 and the matter *)
Variable inputs : R -> R -> R -> St -> SatIn.
Variable r0 : nat -> R.
Hypothesis Lay : layout tab.
Hypothesis Dif : iF2 <> iF3.
Hypothesis L2 : (iF2 < nc tab)%nat.
Hypothesis L3 : (iF3 < nc tab)%nat.
Hypothesis Inv : invertible tab.
Theorem C136_suppressed c y :
  (forall a b f m, liquidThere (inputs a b f m) = true /\ forall j, included (inputs a b f m) j = false) ->
  idle c -> solidMass y = 0 -> nLiq (matter y) = 1%nat -> 550 <= T y <= 2550 ->
  ~ exists l s', search tab coeff iF2 iF3 capped P buffer (fun a b f m => snd (evaluateSaturationState tab (inputs a b f m) r0)) (c, y) l s'.
Proof.
  intros H I S0 N W.
  assert (Q : forall t, saturatedAt tab coeff iF2 iF3 capped P buffer (fun a b f m => snd (evaluateSaturationState tab (inputs a b f m) r0)) y t = false).
  { intros t. unfold saturatedAt. apply C132_all_suppressed; [exact Lay| |]; [intros j; apply H|left; apply H]. }
  apply C136_never; auto.
  - unfold unfit. rewrite S0, N. destruct (Rlt_dec 0 0); [lra|reflexivity].
  - unfold withinLimits. rewrite Q. cbn [stepFor]. lra.
  - intros m. rewrite !Q. reflexivity.
Qed.
End Suppressed.

(** ** C138: the limits of 500 and 2500 K hold for the first step only *)
Section Limits.
Variable tab : Tab.
Variable coeff : nat -> R.
Variables iF2 iF3 : nat.
Variable capped : bool.
Variable P : R.
Variable buffer : R -> R.
Hypothesis Dif : iF2 <> iF3.
Hypothesis L2 : (iF2 < nc tab)%nat.
Hypothesis L3 : (iF3 < nc tab)%nat.
Hypothesis Inv : invertible tab.
(** a system whose liquidus is at TL = 100 K or 10000 K is searched outside the limits and found there *)
Theorem C138_outside TL c y : idle c -> solidMass y = 0 -> nLiq (matter y) = 1%nat -> 600 <= T y <= 2400 -> TL < 400 \/ 2600 < TL ->
  exists l c' y', search tab coeff iF2 iF3 capped P buffer (fun _ t _ _ => if Rlt_dec t TL then true else false) (c, y) l (c', y') /\
    status c' = LIQUIDUS_SUCCESS /\ (T y' < 500 \/ 2500 < T y').
Proof.
  intros I S0 N W B.
  destruct (C137_accuracy tab coeff iF2 iF3 capped P buffer (fun _ t _ _ => if Rlt_dec t TL then true else false) Dif L2 L3 Inv c y TL I) as (l & c' & y' & S & E & A & _).
  - unfold unfit. rewrite S0, N. destruct (Rlt_dec 0 0); [lra|reflexivity].
  - unfold withinLimits, saturatedAt. destruct (Rlt_dec (T y) TL); cbn [stepFor]; lra.
  - intros t Ht. unfold saturatedAt. destruct (Rlt_dec t TL); [reflexivity|lra].
  - intros t Ht. unfold saturatedAt. destruct (Rlt_dec t TL); [lra|reflexivity].
  - exists l, c', y'. split; [exact S|split; [exact E|]]. unfold resolution in A. destruct B; [left|right]; revert A; unfold Rabs; destruct (Rcase_abs (T y' - TL)); lra.
Qed.
End Limits.

(** ** C139: one search after another *)
Section Again.
Variable tab : Tab.
Variable coeff : nat -> R.
Variables iF2 iF3 : nat.
Variable capped : bool.
Variable P : R.
Variable buffer : R -> R.
Variable saturated : R -> R -> R -> St -> bool.
Notation search := (search tab coeff iF2 iF3 capped P buffer saturated).
(** after a success, or a refusal on account of solids, the next search, of whatever system at whatever conditions, is
    like the first one in a program *)
Definition sameBut (a b : LCtl) : Prop := curStep a = curStep b /\ tState a = tState b /\ (tState a <> None -> tInterval a = tInterval b) /\ (curStep a = UPDATE_SYSTEM -> hasSuper a = hasSuper b).
Lemma search_same : forall s l s', search s l s' -> forall a, sameBut (fst s) a -> exists a', search (a, snd s) l (a', snd s') /\ status (fst s') = status a' /\ sameBut (fst s') a'.
Proof.
  assert (TE : forall c a y, curStep c = curStep a -> tests saturated (c, y) = tests saturated (a, y)) by (intros c a y E; unfold LiquidusModel.tests; cbn [fst snd]; now rewrite E).
  assert (STEP : forall c a y s' b, sameBut c a -> liquidus tab coeff iF2 iF3 capped P buffer saturated (c, y) = (s', b) ->
     exists a', liquidus tab coeff iF2 iF3 capped P buffer saturated (a, y) = ((a', snd s'), b) /\ sameBut (fst s') a' /\ (b = true -> status (fst s') = status a')).
  { intros c a y s' b (E1 & E2 & E3 & E4) E. unfold LiquidusModel.liquidus in *. rewrite E1 in E. destruct (curStep a) eqn:Ea.
    - destruct (unfit y); injection E as <- <-; eexists; (split; [reflexivity|]); unfold sameBut; cbn [fst snd curStep tState tInterval hasSuper setStep status]; rewrite ?E1; repeat split; auto; intros; congruence.
    - injection E as <- <-; eexists; (split; [reflexivity|]); unfold sameBut; cbn [fst snd curStep tState tInterval hasSuper setStep status]; repeat split; auto; intros; congruence.
    - injection E as <- <-; eexists; (split; [reflexivity|]); unfold sameBut; cbn [fst snd curStep tState tInterval hasSuper setStep status]; repeat split; auto; intros; congruence.
    - specialize (E4 E1). unfold updateSystem in *. rewrite E2, ?E4 in *. destruct (tState a) as [b0|] eqn:Et.
      + specialize (E3 ltac:(discriminate)). destruct (Bool.eqb b0 (hasSuper a)); cbn [tInterval hasSuper] in *; rewrite ?E3, ?E4 in *;
          match type of E with (if ?d then _ else _) = _ => destruct d end; injection E as <- <-; eexists; (split; [reflexivity|]); unfold sameBut; cbn [fst snd curStep tState tInterval hasSuper setStep status]; rewrite ?E2, ?E4; repeat split; auto; intros; congruence.
      + repeat match type of E with (if ?d then _ else _) = _ => destruct d end; injection E as <- <-; eexists; (split; [reflexivity|]); unfold sameBut; cbn [fst snd curStep tState tInterval hasSuper setStep status]; rewrite ?E2, ?E4, ?E1, ?Ea; repeat split; auto; intros; congruence. }
  induction 1 as [s s' E|s s' l s'' E S IH]; intros a B; destruct s as (c, y); cbn [fst snd] in *.
  - destruct (STEP c a y s' true B E) as (a' & F & G & K). exists a'. split; [|split; [now apply K|exact G]].
    rewrite (TE c a y (proj1 B)). now apply search_end.
  - destruct (STEP c a y s' false B E) as (a' & F & G & _). destruct (IH a' G) as (a2 & S2 & Q & G2). exists a2. split; [|split; [exact Q|exact G2]].
    rewrite (TE c a y (proj1 B)). exact (search_go _ _ _ _ _ _ _ _ _ _ _ _ F S2).
Qed.
Theorem C139_fresh c y l c' y' : idle c -> search (c, y) l (c', y') -> status c' = LIQUIDUS_SUCCESS \/ status c' = LIQUIDUS_MULTIPLE ->
  forall y2 l2 c2 y3 st, search (startCtl st, y2) l2 (c2, y3) -> exists c3, search (c', y2) l2 (c3, y3) /\ status c3 = status c2.
Proof.
  intros I S E y2 l2 c2 y3 st S2.
  assert (ID : idle c').
  { destruct (C134_outcomes tab coeff iF2 iF3 capped P buffer saturated c y l _ I S) as [(A & K & _ & _)|[(b & _ & _ & [(A & _)|(A & _)])|(_ & A & _)]]; cbn [fst snd] in *.
    - destruct I as (I1 & I2). assert (U : unfit y = true).
      { unfold unfit. destruct K as [K|K]; [destruct (Rlt_dec 0 (solidMass y)); [reflexivity|contradiction]|apply Nat.ltb_lt in K; now rewrite K, orb_true_r]. }
      inversion S as [a b F|a b l0 d F S3]; subst; cbn [LiquidusModel.liquidus] in F; rewrite I1, U in F; [|congruence].
      injection F as <-. split; [reflexivity|exact I2].
    - destruct E as [E|E]; rewrite E in A; discriminate.
    - destruct E as [E|E]; rewrite E in A; discriminate.
    - exact A. }
  destruct (search_same _ _ _ S2 c') as (a' & S3 & Q & _).
  - destruct ID as (I1 & I2). unfold sameBut, startCtl. cbn [fst curStep tState tInterval hasSuper]. rewrite I1, I2. repeat split; auto; congruence.
  - exists a'. split; [exact S3|]. symmetry. exact Q.
Qed.
(** but after a search stopped at a limit the next one starts by moving the temperature 50 degrees on, without a test, and
    without looking for solids *)
Theorem C139_after_limit c y l c' y' : idle c -> search (c, y) l (c', y') -> status c' = LIQUIDUS_MAX_T ->
  forall y2, exists c2 d, liquidus tab coeff iF2 iF3 capped P buffer saturated (c', y2) = ((c2, setT (T y2 + d) y2), false) /\ Rabs d = 50.
Proof.
  intros (Hc & Hn) S E y2. destruct (unfit y) eqn:U.
  - inversion S as [a b F|a b l0 d F S3]; subst; cbn [LiquidusModel.liquidus] in F; rewrite Hc, U in F; [|congruence]. injection F as <- _. discriminate.
  - destruct (round_back _ _ _ _ _ _ _ _ c y l _ Hc U S) as (l1 & -> & C).
    pose proof (round_first tab coeff iF2 iF3 capped P buffer saturated c y Hn) as R1. cbv zeta in R1. rewrite R1 in C. clear R1.
    set (b := testSat saturated (changeTP tab coeff iF2 iF3 capped P buffer y)) in *.
    assert (W : Rabs (firstInt b) = 50) by (destruct b; unfold firstInt; [apply Rabs_right|rewrite Rabs_left]; lra).
    destruct (Rlt_dec 2500 (T y + firstInt b)) as [G|G].
    + destruct C as [(C & ->)|(s1 & C & _)]; [|congruence]. injection C as <- <-.
      unfold LiquidusModel.liquidus, updateSystem. cbn [curStep tState hasSuper tInterval status]. rewrite Bool.eqb_reflx. cbn [curStep tState hasSuper tInterval status].
      destruct (Rlt_dec (1 / 10) (Rabs (firstInt b))) as [|N]; [|exfalso; apply N; rewrite W; lra]. eexists _, (firstInt b). split; [reflexivity|exact W].
    + exfalso. destruct (C134_outcomes tab coeff iF2 iF3 capped P buffer saturated c y _ _ (conj Hc Hn) S) as [(A & _)|[(b' & _ & A3 & [(A & A2)|(A & _)])|(A & _)]]; cbn [fst snd] in *; try (rewrite E in A; discriminate).
      destruct (Rlt_dec (T y + firstInt b) 500) as [G2|G2]; destruct C as [(C & _)|(s1 & C & S1)]; try congruence.
      * injection C as <- <-. discriminate.
      * injection C as <-. destruct (under_way tab coeff iF2 iF3 capped P buffer saturated (length l1) l1 eq_refl
          (mkLCtl CHECK_CONDITION b (Some b) (firstInt b) (status c)) (setT (T y + firstInt b) (changeTP tab coeff iF2 iF3 capped P buffer y)) (c', y') b 0 (T y) (matter y)
          eq_refl (eq_trans (changeTP_unfit _ _ _ _ _ _ _ y) U) eq_refl (firstInt_abs b) ltac:(lia) eq_refl S1) as (A1 & _). cbn [fst] in A1. rewrite E in A1. discriminate.
Qed.
End Again.

(** ** Cases *)
(** two oxides, FeO and Fe2O3, that are liquid components too *)
Definition twoTab : Tab :=
  mkTab 2 0 2 (fun _ => false) (fun _ => O) (fun _ _ => 0) (fun _ _ => 0)
    (fun j o => if Nat.eqb j o then 1 else 0) (fun o j => if Nat.eqb o j then 1 else 0)
    (fun _ => 0) (fun _ => 0) (fun _ => 0) (fun _ => 0) (fun o => Nat.eqb o 1).
Definition twoSt : St := mkSt true 1 (fun _ _ => 1) (fun _ => O) (fun _ _ => 0) (fun _ => 1) (fun _ _ => 0) (fun _ => 0) 0 0 true.
Lemma twoTab_invertible : invertible twoTab.
Proof.
  intros m o Ho. cbn [twoTab nc] in Ho. destruct o as [|[|o]]; [| |lia]; cbn; lra.
Qed.
Definition below (TL : R) : R -> R -> R -> St -> bool := fun _ t _ _ => if Rlt_dec t TL then true else false.
(** a buffered liquid with its liquidus at 1500 K, started at 1400 K, meets the hypotheses of C137, C136 and C135 *)
Theorem C137_case : let y := mkLSys twoSt 1400 (-8) 0 0 in
  idle (startCtl 9999) /\ unfit y = false /\ fo2On (matter y) = true /\
  withinLimits twoTab (fun _ => 0) 0 1 true 1000 (fun t => - 8 - t / 1000) (below 1500) y /\
  exists l c' y', search twoTab (fun _ => 0) 0 1 true 1000 (fun t => - 8 - t / 1000) (below 1500) (startCtl 9999, y) l (c', y') /\
    status c' = LIQUIDUS_SUCCESS /\ Rabs (T y' - 1500) <= resolution /\ INR (length l) <= 20.
Proof.
  intros y. assert (I : idle (startCtl 9999)) by (split; reflexivity).
  assert (U : unfit y = false) by (unfold unfit, y; cbn [solidMass matter nLiq twoSt]; destruct (Rlt_dec 0 0); [lra|reflexivity]).
  assert (W : withinLimits twoTab (fun _ => 0) 0 1 true 1000 (fun t => - 8 - t / 1000) (below 1500) y).
  { unfold withinLimits, saturatedAt, below, y. cbn [T]. destruct (Rlt_dec 1400 1500); cbn [stepFor]; lra. }
  split; [exact I|split; [exact U|split; [reflexivity|split; [exact W|]]]].
  destruct (C137_accuracy twoTab (fun _ => 0) 0 1 true 1000 (fun t => - 8 - t / 1000) (below 1500) ltac:(lia) ltac:(cbn; lia) ltac:(cbn; lia) twoTab_invertible (startCtl 9999) y 1500 I U W)
    as (l & c' & y' & S & E & A & B).
  - intros t Ht. unfold saturatedAt, below. destruct (Rlt_dec t 1500); [reflexivity|lra].
  - intros t Ht. unfold saturatedAt, below. destruct (Rlt_dec t 1500); [lra|reflexivity].
  - exists l, c', y'. split; [exact S|split; [exact E|split; [exact A|]]]. cbn [T y] in B. rewrite Rabs_left in B by lra. lra.
Qed.
(** C139 refuted: a search stopped at 2500 K; the next system has solids; a program's first search would refuse it and
    leave it alone, this one moves its temperature *)
Theorem C139_not_fresh : exists c', 
  (exists y l y', search twoTab (fun _ => 0) 0 1 true 1000 (fun t => 0) (below 9999) (startCtl 9999, y) l (c', y')) /\
  let y2 := mkLSys twoSt 1400 (-8) 10 0 in
  (exists c2, search twoTab (fun _ => 0) 0 1 true 1000 (fun t => 0) (below 9999) (startCtl 9999, y2) [] (c2, y2)) /\
  exists c3, search twoTab (fun _ => 0) 0 1 true 1000 (fun t => 0) (below 9999) (c', y2) [] (c3, setT (1400 + 50) y2).
Proof.
  set (y := mkLSys twoSt 2480 (-8) 0 0).
  assert (U : unfit y = false) by (unfold unfit, y; cbn [solidMass matter nLiq twoSt]; destruct (Rlt_dec 0 0); [lra|reflexivity]).
  pose proof (round_first twoTab (fun _ => 0) 0 1 true 1000 (fun t => 0) (below 9999) (startCtl 9999) y eq_refl) as R1. cbv zeta in R1.
  assert (B : testSat (below 9999) (changeTP twoTab (fun _ => 0) 0 1 true 1000 (fun _ => 0) y) = true).
  { unfold testSat, below. rewrite changeTP_T. cbn [T y]. destruct (Rlt_dec 2480 9999); [reflexivity|lra]. }
  rewrite B in R1. destruct (Rlt_dec 2500 (T y + firstInt true)) as [G|G]; [|exfalso; cbn [T y firstInt] in G; lra].
  eexists. split.
  - exists y. eexists _, _. apply round_end; [reflexivity|exact U|exact R1].
  - intros y2. split.
    + eexists. refine (search_end _ _ _ _ _ _ _ _ (startCtl 9999, y2) _ _). cbn [LiquidusModel.liquidus startCtl curStep].
      replace (unfit y2) with true by (unfold unfit, y2; cbn [solidMass]; destruct (Rlt_dec 0 10); [reflexivity|lra]). reflexivity.
    + eexists. change (@nil (R * St * bool)) with (@nil (R * St * bool) ++ []).
      refine (search_go _ _ _ _ _ _ _ _ (mkLCtl UPDATE_SYSTEM true (Some true) (firstInt true) LIQUIDUS_MAX_T, y2) (mkLCtl CHECK_CONDITION true (Some true) (firstInt true) LIQUIDUS_MAX_T, setT (1400 + 50) y2) [] _ _ _).
      * unfold LiquidusModel.liquidus, updateSystem. cbn [curStep tState hasSuper tInterval status Bool.eqb].
        destruct (Rlt_dec (1 / 10) (Rabs (firstInt true))) as [|N]; [reflexivity|exfalso; apply N; unfold firstInt; rewrite Rabs_right; lra].
      * refine (search_end _ _ _ _ _ _ _ _ (mkLCtl CHECK_CONDITION true (Some true) (firstInt true) LIQUIDUS_MAX_T, setT (1400 + 50) y2) _ _). cbn [LiquidusModel.liquidus curStep].
        replace (unfit (setT (1400 + 50) y2)) with true by (unfold unfit, y2; cbn [solidMass setT]; destruct (Rlt_dec 0 10); [reflexivity|lra]). reflexivity.
Qed.
