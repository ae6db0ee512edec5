(** C89-C91: gradient and Hessian of a minimisation step. *)
From Coq Require Import Reals List Lia Lra Bool Arith FunctionalExtensionality.
From Coquelicot Require Import Coquelicot.
From Verif Require Import MassModel MassSpec MassProofs RealTac StepModel StepProofs HessModel HessFill HessGen HessSpec HessPhase HessBlock HessProofs.
Import List ListNotations.
Open Scope R_scope.

(** ** C89: from intensive to extensive *)
Section C89.
Variables (X : Mixing) (n : nat) (D : (nat -> R) -> Prop) (F : (nat -> R) -> R) (Fx : (nat -> R) -> nat -> R) (Fxx : (nat -> R) -> nat -> nat -> R).
Hypothesis OK : solutionOK X n D.
Hypothesis G1 : gradient X n D F Fx.
Definition extensive (m : nat -> R) : R := sum n m * F (xR X m).
Theorem C89_gradient m j : D m -> there n m j ->
  is_derive (fun y => extensive (upd m j y)) (m j) (extGrad (xNr X) (F (xR X m)) (Fx (xR X m)) (sum n m) (xDr X m) j).
Proof. exact (ext_d1 X n D F Fx G1 m j). Qed.
Hypothesis G2 : hessian X n D Fx Fxx.
Theorem C89_hessian m j k : D m -> there n m j -> there n m k ->
  is_derive (fun x => Derive (fun y => extensive (upd (upd m k x) j y)) (upd m k x j)) (m k)
    (extHess (xNr X) (Fx (xR X m)) (Fxx (xR X m)) (sum n m) (xDr X m) (xD2r X m) j k).
Proof. exact (ext_d2 X n D OK F Fx Fxx G1 G2 m j k). Qed.
End C89.

(** the moles in each column *)
Definition amounts (vs : list Var) (s : St) (c : nat) : R := match nth_error vs c with Some v => valVar s v | None => 0 end.

Section C90.
Variable tab : Tab.
Variables t p : R.
Variable liqX : Mixing.
Variable liqStd : nat -> Std.
Variable solX : nat -> Mixing.
Variable solStd : nat -> Std.
Variable conCols : nat.
Variable DL : (nat -> R) -> Prop.
Variable DS : nat -> (nat -> R) -> Prop.
Hypothesis Lay : layout tab.
Hypothesis Ht : 0 < t.
Hypothesis OKL : solutionOK liqX (nlc tab) DL.
Hypothesis OKS : forall i, (i < npc tab)%nat -> isPhase tab i = true -> na tab i <> 1%nat -> solutionOK (solX i) (na tab i) (DS i).
Hypothesis StdL : forall j, (j < nlc tab)%nat -> stdOK (liqStd j).
Hypothesis StdS : forall i, (i < npc tab)%nat -> stdOK (solStd i).
Variable s : St.
Hypothesis Cnt : counts tab s.
Hypothesis InL : hasLiquid s = true -> forall nl, (nl < nLiq s)%nat -> DL (liqC s nl).
Hypothesis InS : forall i n, (n < nSol s i)%nat -> na tab i <> 1%nat -> DS i (fun j => solC s (i + 1 + j)%nat n) /\ solC s i n = sum (na tab i) (fun j => solC s (i + 1 + j)%nat n).
Notation vs := (conVars tab (hasLiquid s) s).
Hypothesis Fit : (length vs < conCols)%nat.
Notation pot md := (potential tab liqX liqStd solX solStd md (hasLiquid s)).
Notation M md := (gradHess tab md t p liqX liqStd solX solStd (hasLiquid s) conCols s).

Section Any.
Variable md : Mode.
Notation Bk := (Bk tab md t p liqX liqStd solX solStd).
Notation act := (act tab md t p liqX liqStd solX solStd).
Notation ids := (ids tab).
Notation plc l := (places Id (act s) l).
Notation phi := (phi tab md t p liqX liqStd solX solStd).
Lemma cols : map pvar (plc (ids s)) = vs.
Proof. apply columns; auto. Qed.
Lemma nth_cols r v : nth_error vs r = Some v -> exists d j, nth_error (plc (ids s)) r = Some (d, j) /\ v = var d j /\ In d (ids s) /\ In j (act s d) /\ (r < conCols - 1 \/ md = Plain \/ r < length vs)%nat.
Proof.
  intros E. assert (L : (r < length vs)%nat) by (apply nth_error_Some; congruence). rewrite <- cols, nth_map in E. destruct (nth_error (plc (ids s)) r) as [[d j]|] eqn:N; [|discriminate]. cbn in E. injection E as <-.
  exists d, j. split; auto. split; auto. split; [eapply places_in; eauto|]. split; auto.
  apply nth_error_In in N. unfold places in N. apply in_flat_map in N. destruct N as (d' & _ & N). apply in_map_iff in N. destruct N as (j' & E & N). congruence.
Qed.
Lemma fit' : (length (plc (ids s)) < conCols)%nat.
Proof. rewrite <- cols, map_length in Fit. exact Fit. Qed.
Lemma notI r : (r < length vs)%nat -> isIdx (tIndex md conCols) r = false.
Proof. intros H. unfold isIdx, tIndex. destruct (imposedMode md); auto. apply Nat.eqb_neq. lia. Qed.

Lemma any_gradient r v : nth_error vs r = Some v ->
  exists d j, nth_error (plc (ids s)) r = Some (d, j) /\ is_derive (fun y => pot md t p (setVar v y s)) (valVar s v) (bDp (Bk s d) j) /\
   mB (M md) r = - bDp (Bk s d) j + rowB (imposedMode md) (Bk s d) (bN (Bk s d)) j.
Proof.
  intros E. destruct (nth_cols r v E) as (d & j & N & -> & I & J & _). exists d, j. split; auto. destruct (at_tau md t p) as [T1 T2]. split.
  - pose proof (Pot_d1 Id id_dec (Bk s) (act s) (ids s) (ids_NoDup tab s) phi (amt s) (tauOf md t p) d j I J
      (block_exact tab md t p liqX liqStd solX solStd DL DS Lay Ht OKL OKS StdL StdS s Cnt InL InS d I)) as K.
    rewrite <- amt_val. refine (is_derive_ext _ _ _ _ _ K). intros y. symmetry.
    transitivity (pot md (atT md t (tauOf md t p)) (atP md p (tauOf md t p)) (setVar (var d j) y s)); [now rewrite T1, T2|]. eapply pot_Pot; eauto.
    + apply set_ids.
    + apply set_has.
    + now apply set_counts.
    + eapply same_set; eauto; [apply same_refl|]. eapply act_range; eauto.
  - destruct (gradHess_filled tab md t p liqX liqStd solX solStd conCols s fit') as (_ & _ & F3). rewrite F3.
    assert (L : (r < length vs)%nat) by (apply nth_error_Some; congruence).
    apply (totB_place Id (imposedMode md) (tIndex md conCols) (Bk s) (act s) (ids s) 0 r (d, j)); [lia|apply notI; auto|]. now rewrite Nat.sub_0_r.
Qed.
Lemma any_hessian r c v w : nth_error vs r = Some v -> nth_error vs c = Some w ->
  is_derive (fun x => Derive (fun y => pot md t p (setVar v y (setVar w x s))) (valVar (setVar w x s) v)) (valVar s w) (mE (M md) r c).
Proof.
  intros E E'. destruct (nth_cols r v E) as (d & j & N & -> & I & J & _). destruct (nth_cols c w E') as (d' & k & N' & -> & I' & J' & _). destruct (at_tau md t p) as [T1 T2].
  destruct (gradHess_filled tab md t p liqX liqStd solX solStd conCols s fit') as (_ & F2 & _). rewrite F2.
  assert (L : (r < length vs)%nat) by (apply nth_error_Some; congruence). assert (L' : (c < length vs)%nat) by (apply nth_error_Some; congruence).
  rewrite (totE_place Id id_dec (tIndex md conCols) (Bk s) (act s) (ids s) (ids_NoDup tab s) 0 r c (d, j) (d', k)); try lia; try (apply notI; auto); try (now rewrite Nat.sub_0_r).
  pose proof (Pot_d2 Id id_dec (Bk s) (act s) (ids s) (ids_NoDup tab s) phi (amt s) (tauOf md t p) d j d' k I I' J J'
      (block_exact tab md t p liqX liqStd solX solStd DL DS Lay Ht OKL OKS StdL StdS s Cnt InL InS d I)) as K.
  assert (Rj : (j < num tab d)%nat) by (eapply act_range; eauto). assert (Rk : (k < num tab d')%nat) by (eapply act_range; eauto).
  rewrite <- amt_val. refine (is_derive_ext _ _ _ _ _ K). intros x. symmetry.
  assert (S1 : same tab s (amt (setVar (var d' k) x s)) (updA Id id_dec (amt s) d' k x)) by (eapply same_set; eauto; apply same_refl).
  rewrite <- amt_val, (S1 d I j Rj). apply Derive_ext. intros y. transitivity (pot md (atT md t (tauOf md t p)) (atP md p (tauOf md t p)) (setVar (var d j) y (setVar (var d' k) x s))); [now rewrite T1, T2|].
  eapply pot_Pot; eauto.
  - now rewrite !set_ids.
  - now rewrite !set_has.
  - now do 2 apply set_counts.
  - eapply same_set; eauto.
Qed.
End Any.

(** *** C90: temperature and pressure given *)
Lemma fold_nth {A} (f : A -> R) (l : list A) : sum (length l) (fun c => match nth_error l c with Some b => f b | None => 0 end) = fold_right (fun b x => f b + x) 0 l.
Proof. induction l as [|a l IH]; [reflexivity|]. cbn [length fold_right]. rewrite sum_S_front. cbn [nth_error]. now rewrite <- IH. Qed.
Lemma fold_filter (f : nat -> R) (q : nat -> bool) n : fold_right (fun b x => f b + x) 0 (filter q (seq 0 n)) = sum n (fun k => if q k then f k else 0).
Proof.
  assert (G : forall l l', fold_right (fun b x => f b + x) 0 (l ++ l') = fold_right (fun b x => f b + x) 0 l + fold_right (fun b x => f b + x) 0 l').
  { induction l as [|a l IH]; intros l'; cbn; [ring|]. rewrite IH. ring. }
  induction n; [reflexivity|]. rewrite seq_S, filter_app, G, IHn. cbn [Nat.add filter sum]. destruct (q n); cbn; ring.
Qed.
Lemma plain_gradient r v : nth_error vs r = Some v ->
  is_derive (fun y => pot Plain t p (setVar v y s)) (valVar s v) (sum (length vs) (fun c => mE (M Plain) r c * amounts vs s c) - mB (M Plain) r).
Proof.
  intros E. destruct (any_gradient Plain r v E) as (d & j & N & K & HB). eapply is_derive_eq; [exact K|]. rewrite HB.
  set (Bk0 := Bk tab Plain t p liqX liqStd solX solStd s). set (act0 := act tab Plain t p liqX liqStd solX solStd s).
  assert (L : (r < length vs)%nat) by (apply nth_error_Some; congruence).
  assert (I : In d (ids tab s)) by (eapply places_in; eauto).
  pose proof (cols Plain) as CE. fold act0 in CE.
  assert (S : sum (length vs) (fun c => mE (M Plain) r c * amounts vs s c) = rowB false (Bk0 d) (bN (Bk0 d)) j); [|cbn [imposedMode]; fold Bk0; rewrite S; ring].
  rewrite (sum_ext (length vs) _ (fun c => match nth_error (places Id act0 (ids tab s)) c with Some b => pairE Id id_dec Bk0 (d, j) b * amt s (fst b) (snd b) | None => 0 end)).
  - rewrite <- CE, map_length, (fold_nth (fun b => pairE Id id_dec Bk0 (d, j) b * amt s (fst b) (snd b))).
    assert (G : forall l, fold_right (fun b x => pairE Id id_dec Bk0 (d, j) b * amt s (fst b) (snd b) + x) 0 (places Id act0 l)
                = sumL Id (fun d' => fold_right (fun k x => pairE Id id_dec Bk0 (d, j) (d', k) * amt s d' k + x) 0 (act0 d')) l).
    { induction l as [|a l IH]; [reflexivity|]. rewrite sumL_cons, <- IH. unfold places. cbn [flat_map]. generalize (flat_map (fun d0 => map (pair d0) (act0 d0)) l). intros l'.
      generalize (act0 a). intros la. induction la as [|k la IHa]; cbn [map app fold_right fst snd]; [ring|]. rewrite IHa. ring. }
    rewrite G, (sumL_one Id _ (ids tab s) d (ids_NoDup tab s) I).
    + unfold pairE. cbn [fst snd]. destruct (id_dec d d); [|congruence]. unfold rowB. destruct d as [nl|i|i n0].
      * unfold act0, act, active, upto. rewrite fold_filter. unfold Bk0. apply sum_ext. intros k _. unfold isActive. cbn [Bk]. unfold liqBlock. rewrite B_m. destruct (zeroR _); cbn [negb amt]; ring.
      * unfold act0, act. cbn [fold_right]. unfold Bk0. cbn [Bk]. rewrite pure_D2. rewrite sum_0; [ring|]. intros k _. rewrite pure_D2. destruct (isActive _ _); ring.
      * unfold act0, act, active, upto. rewrite fold_filter. unfold Bk0. apply sum_ext. intros k _. unfold isActive. cbn [Bk]. unfold solBlock. rewrite B_m. destruct (zeroR _); cbn [negb amt]; ring.
    + intros d' I' Nd. unfold pairE. cbn [fst snd]. destruct (id_dec d d'); [congruence|]. induction (act0 d'); cbn; [ring|]. rewrite IHl. ring.
  - intros c Hc. unfold amounts. destruct (nth_error vs c) as [w|] eqn:Ew; [|exfalso; apply nth_error_None in Ew; lia].
    destruct (nth_cols Plain c w Ew) as (d' & k & N' & -> & I' & J' & _). fold act0 in N'. rewrite N'. cbn [fst snd]. rewrite amt_val. f_equal.
    destruct (gradHess_filled tab Plain t p liqX liqStd solX solStd conCols s (fit' Plain)) as (_ & F2 & _). rewrite F2.
    apply (totE_place Id id_dec (tIndex Plain conCols) Bk0 act0 (ids tab s) (ids_NoDup tab s) 0 r c (d, j) (d', k)); try lia; try reflexivity; now rewrite Nat.sub_0_r.
Qed.
Lemma plain_hessian r c v w : nth_error vs r = Some v -> nth_error vs c = Some w ->
  is_derive (fun x => Derive (fun y => pot Plain t p (setVar v y (setVar w x s))) (valVar (setVar w x s) v)) (valVar s w) (mE (M Plain) r c).
Proof. apply any_hessian. Qed.

(** *** C91: an imposed enthalpy, entropy or volume. The last variable is the temperature, for a volume the pressure. *)
Section C91.
Variable md : Mode.
Hypothesis Imp : md <> Plain.
Notation last := (conCols - 1)%nat.
(** the energy as a function of the last variable *)
Definition potAt (x : R) (s' : St) : R := match md with Isochoric => pot md t x s' | _ => pot md x p s' end.
Definition lastValue : R := match md with Isochoric => p | _ => t end.
Lemma potAt_eq x s' : potAt x s' = pot md (atT md t x) (atP md p x) s'.
Proof. unfold potAt, atT, atP. destruct md; reflexivity. Qed.
Lemma imp : imposedMode md = true.
Proof. destruct md; auto; congruence. Qed.
Theorem C91_gradient r v : nth_error vs r = Some v -> is_derive (fun y => pot md t p (setVar v y s)) (valVar s v) (- mB (M md) r).
Proof. intros E. destruct (any_gradient md r v E) as (d & j & N & K & HB). eapply is_derive_eq; [exact K|]. rewrite HB, imp. unfold rowB. ring. Qed.
Theorem C91_hessian r c v w : nth_error vs r = Some v -> nth_error vs c = Some w ->
  is_derive (fun x => Derive (fun y => pot md t p (setVar v y (setVar w x s))) (valVar (setVar w x s) v)) (valVar s w) (mE (M md) r c).
Proof. apply any_hessian. Qed.
Notation Bk := (Bk tab md t p liqX liqStd solX solStd).
Notation act := (act tab md t p liqX liqStd solX solStd).
Notation ids := (ids tab).
Notation plc l := (places Id (act s) l).
Notation phi := (phi tab md t p liqX liqStd solX solStd).
Lemma exT d : In d (ids s) -> exactT Id (Bk s) (act s) phi (amt s) (tauOf md t p) d.
Proof. exact (block_exactT tab md t p liqX liqStd solX solStd DL DS Lay Ht OKL OKS StdL StdS s Cnt InL InS d Imp). Qed.
Lemma is_last : tIndex md conCols = Some last.
Proof. unfold tIndex. now rewrite imp. Qed.
Theorem C91_last_gradient : is_derive (fun x => potAt x s) lastValue (- mB (M md) last).
Proof.
  destruct (gradHess_filled tab md t p liqX liqStd solX solStd conCols s (fit' md)) as (_ & _ & F3). rewrite F3.
  rewrite (totB_i Id (imposedMode md) (tIndex md conCols) (Bk s) (act s) (ids s) last is_last 0) by (pose proof (fit' md); lia).
  pose proof (Pot_t1 Id (Bk s) (act s) (ids s) phi (amt s) (tauOf md t p) exT) as K. eapply is_derive_eq; [refine (is_derive_ext _ _ _ _ _ K)|ring].
  intros x. symmetry. rewrite potAt_eq. eapply pot_Pot; eauto. apply same_refl.
Qed.
Theorem C91_last_hessian : is_derive (fun x => Derive (fun x => potAt x s) x) lastValue (mE (M md) last last).
Proof.
  destruct (gradHess_filled tab md t p liqX liqStd solX solStd conCols s (fit' md)) as (_ & F2 & _). rewrite F2.
  rewrite (totE_ii Id (tIndex md conCols) (Bk s) (act s) (ids s) last is_last 0) by (pose proof (fit' md); lia).
  pose proof (Pot_t2 Id (Bk s) (act s) (ids s) phi (amt s) (tauOf md t p) exT) as K. refine (is_derive_ext _ _ _ _ _ K).
  intros x. symmetry. apply Derive_ext. intros x'. rewrite potAt_eq. eapply pot_Pot; eauto. apply same_refl.
Qed.
Theorem C91_mixed r v : nth_error vs r = Some v ->
  is_derive (fun y => Derive (fun x => potAt x (setVar v y s)) lastValue) (valVar s v) (mE (M md) r last) /\ mE (M md) last r = mE (M md) r last.
Proof.
  intros E. destruct (nth_cols md r v E) as (d & j & N & -> & I & J & _).
  destruct (gradHess_filled tab md t p liqX liqStd solX solStd conCols s (fit' md)) as (_ & F2 & _). rewrite !F2.
  destruct (totE_idx Id (tIndex md conCols) (Bk s) (act s) (ids s) last is_last 0 r (d, j)) as [-> ->]; try lia; [pose proof (fit' md); lia|now rewrite Nat.sub_0_r|apply ids_NoDup|].
  split; auto. cbn [fst snd].
  pose proof (Pot_tx Id id_dec (Bk s) (act s) (ids s) (ids_NoDup tab s) phi (amt s) (tauOf md t p) d j exT I J) as K.
  rewrite <- amt_val. refine (is_derive_ext _ _ _ _ _ K). intros y. symmetry. apply Derive_ext. intros x. rewrite potAt_eq. eapply pot_Pot; eauto.
  - apply set_ids.
  - apply set_has.
  - now apply set_counts.
  - eapply same_set; eauto; [apply same_refl|]. eapply act_range; eauto.
Qed.
End C91.
End C90.

(** C90 as the driver meets it: with temperature and pressure given there is a column for each amount and no other, so
    nothing is asked of conCols. *)
Section C90'.
Variable tab : Tab.
Variables t p : R.
Variable liqX : Mixing.
Variable liqStd : nat -> Std.
Variable solX : nat -> Mixing.
Variable solStd : nat -> Std.
Variable conCols : nat.
Variable DL : (nat -> R) -> Prop.
Variable DS : nat -> (nat -> R) -> Prop.
Hypothesis Lay : layout tab.
Hypothesis Ht : 0 < t.
Hypothesis OKL : solutionOK liqX (nlc tab) DL.
Hypothesis OKS : forall i, (i < npc tab)%nat -> isPhase tab i = true -> na tab i <> 1%nat -> solutionOK (solX i) (na tab i) (DS i).
Hypothesis StdL : forall j, (j < nlc tab)%nat -> stdOK (liqStd j).
Hypothesis StdS : forall i, (i < npc tab)%nat -> stdOK (solStd i).
Variable s : St.
Hypothesis Cnt : counts tab s.
Hypothesis InL : hasLiquid s = true -> forall nl, (nl < nLiq s)%nat -> DL (liqC s nl).
Hypothesis InS : forall i n, (n < nSol s i)%nat -> na tab i <> 1%nat -> DS i (fun j => solC s (i + 1 + j)%nat n) /\ solC s i n = sum (na tab i) (fun j => solC s (i + 1 + j)%nat n).
Notation vs := (conVars tab (hasLiquid s) s).
Notation G := (gibbs tab liqX liqStd solX solStd (hasLiquid s) t p).
Notation M := (gradHess tab Plain t p liqX liqStd solX solStd (hasLiquid s) conCols s).
Theorem C90_gradient r v : nth_error vs r = Some v ->
  is_derive (fun y => G (setVar v y s)) (valVar s v) (sum (length vs) (fun c => mE M r c * amounts vs s c) - mB M r).
Proof. exact (plain_gradient tab t p liqX liqStd solX solStd (S (length vs)) DL DS Lay Ht OKL OKS StdL StdS s Cnt InL InS (Nat.lt_succ_diag_r _) r v). Qed.
Theorem C90_hessian r c v w : nth_error vs r = Some v -> nth_error vs c = Some w ->
  is_derive (fun x => Derive (fun y => G (setVar v y (setVar w x s))) (valVar (setVar w x s) v)) (valVar s w) (mE M r c).
Proof. exact (plain_hessian tab t p liqX liqStd solX solStd (S (length vs)) DL DS Lay Ht OKL OKS StdL StdS s Cnt InL InS (Nat.lt_succ_diag_r _) r c v w). Qed.
End C90'.
