(** * C21, C65-C67: paths end where they should, corrections, increments, assimilation steps *)

From Coq Require Import Reals List Arith Bool ZArith Lra Lia Psatz.
From Coq Require Import Floats.SpecFloat.
From Verif Require Import PathModel.
Open Scope R_scope.

(** ** Specification *)

(** The number of whole increments that fit between the end points. *)
Definition fits (d inc : R) (n : nat) : Prop := INR n * inc <= d < INR (S n) * inc.

(** Where a run stands after k steps of at most n: in the direction of the stop value. *)
Definition pathAt (start stop inc : R) (n k : nat) : R :=
  if Rlt_dec start stop then start + INR (min k n) * inc else start - INR (min k n) * inc.

(** What an equilibration may change: nothing of the path, the temperature only at imposed
    enthalpy or entropy, the pressure only at imposed volume, and never a reference value that
    is already set. *)
Definition keepsPath (c : Cfg) (solve : nat -> St -> St) : Prop :=
  forall n s,
    Tstart (solve n s) = Tstart s /\ Pstart (solve n s) = Pstart s /\
    assimMass (solve n s) = assimMass s /\ assimInc (solve n s) = assimInc s /\
    (isenthalpic c = false -> isentropic c = false -> sT (solve n s) = sT s) /\
    (isochoric c = false -> sP (solve n s) = sP s) /\
    (refH s <> 0 -> refH (solve n s) = refH s) /\
    (refS s <> 0 -> refS (solve n s) = refS s) /\
    (refV s <> 0 -> refV (solve n s) = refV s).

(** ** Comparisons *)

Lemma Rltb_true : forall x y, x < y -> Rltb x y = true.
Proof. intros x y H. unfold Rltb. destruct (Rlt_dec x y); [reflexivity | contradiction]. Qed.
Lemma Rltb_false : forall x y, y <= x -> Rltb x y = false.
Proof. intros x y H. unfold Rltb. destruct (Rlt_dec x y); [lra | reflexivity]. Qed.
Lemma Rgeb_true : forall x y, y <= x -> Rgeb x y = true.
Proof. intros x y H. unfold Rgeb. destruct (Rle_dec y x); [reflexivity | contradiction]. Qed.
Lemma Rgeb_false : forall x y, x < y -> Rgeb x y = false.
Proof. intros x y H. unfold Rgeb. destruct (Rle_dec y x); [lra | reflexivity]. Qed.
Lemma nonzero_true : forall x, x <> 0 -> nonzero x = true.
Proof. intros x H. unfold nonzero, Reqb. destruct (Req_EM_T x 0); [contradiction | reflexivity]. Qed.
Lemma nonzero_0 : nonzero 0 = false.
Proof. unfold nonzero, Reqb. destruct (Req_EM_T 0 0); [reflexivity | lra]. Qed.
Lemma orSmall_pos : forall i x, i <> 0 -> orSmall i x = i.
Proof. intros i x H. unfold orSmall. rewrite nonzero_true by assumption. reflexivity. Qed.

(** ** One scalar moving towards its stop value *)

Definition far1 (stop inc x : R) : bool := Rgeb (Rabs (x - stop)) (orSmall inc (1/1000)).
Definition move1 (stop inc x : R) : R := if Rltb (x - stop) 0 then x + inc else x - inc.
Fixpoint iter1 (stop inc x : R) (k : nat) : R :=
  match k with
  | O => x
  | S m => let y := iter1 stop inc x m in if far1 stop inc y then move1 stop inc y else y
  end.

Lemma fits_exists : forall d inc, 0 <= d -> 0 < inc -> exists n, fits d inc n.
Proof.
  intros d inc Hd Hi.
  destruct (archimed (d / inc)) as [A B].
  assert (Q : 0 <= d / inc) by (apply Rmult_le_pos; [lra | left; apply Rinv_0_lt_compat; lra]).
  assert (P : (0 < up (d / inc))%Z).
  { apply lt_IZR. lra. }
  exists (Z.to_nat (up (d / inc) - 1)). unfold fits.
  rewrite S_INR, INR_IZR_INZ, Z2Nat.id by lia.
  rewrite minus_IZR.
  assert (E : d = d / inc * inc) by (field; lra).
  split.
  - rewrite E at 2. apply Rmult_le_compat_r; lra.
  - rewrite E at 1. apply Rmult_lt_compat_r; lra.
Qed.

Lemma fits_lt : forall d inc n k, 0 < inc -> fits d inc n ->
  (k < n)%nat -> inc <= d - INR k * inc.
Proof.
  intros d inc n k Hi [A _] Hk.
  assert (L : INR (S k) <= INR n) by (apply le_INR; lia).
  rewrite S_INR in L. nra.
Qed.

Lemma iter1_path : forall stop inc x n, 0 < inc -> fits (Rabs (x - stop)) inc n ->
  forall k, iter1 stop inc x k = pathAt x stop inc n k
            /\ far1 stop inc (iter1 stop inc x k) = (k <? n)%nat.
Proof.
  intros stop inc x n Hi F.
  assert (FAR : forall k, far1 stop inc (pathAt x stop inc n k) = (k <? n)%nat).
  { intros k. unfold far1. rewrite orSmall_pos by lra.
    unfold pathAt. destruct (Nat.ltb_spec k n) as [L | L].
    - rewrite Nat.min_l by lia. apply Rgeb_true.
      pose proof (fits_lt _ _ _ _ Hi F L) as G.
      destruct (Rlt_dec x stop) as [D | D].
      + rewrite (Rabs_left (x - stop)) in G by lra. rewrite Rabs_left by nra. nra.
      + rewrite (Rabs_right (x - stop)) in G by lra. rewrite Rabs_right by nra. nra.
    - rewrite Nat.min_r by lia. apply Rgeb_false. destruct F as [A B]. rewrite S_INR in B.
      destruct (Rlt_dec x stop) as [D | D].
      + rewrite (Rabs_left (x - stop)) in A, B by lra. rewrite Rabs_left1 by nra. nra.
      + rewrite (Rabs_right (x - stop)) in A, B by lra. rewrite Rabs_right by nra. nra. }
  intros k. assert (E : iter1 stop inc x k = pathAt x stop inc n k).
  { induction k as [| k IH].
    - unfold iter1, pathAt. cbn [Nat.min]. change (INR 0) with 0. destruct (Rlt_dec x stop); ring.
    - cbn [iter1]. rewrite IH, FAR. unfold pathAt. destruct (Nat.ltb_spec k n) as [L | L].
      + rewrite !Nat.min_l by lia. rewrite S_INR. unfold move1.
        pose proof (fits_lt _ _ _ _ Hi F L) as G.
        destruct (Rlt_dec x stop) as [D | D].
        * rewrite (Rabs_left (x - stop)) in G by lra. rewrite Rltb_true by nra. ring.
        * rewrite (Rabs_right (x - stop)) in G by lra. rewrite Rltb_false by nra. ring.
      + rewrite !Nat.min_r by lia. reflexivity. }
  split; [exact E | rewrite E; apply FAR].
Qed.

(** ** One reference value moving by a signed increment *)

Definition far2 (stop inc small y : R) : bool :=
  Rgeb (Rabs (stop - y)) (orSmall (Rabs inc) small).

Lemma ref_far : forall y stop inc small n k, 0 < inc * (stop - y) ->
  fits (Rabs (stop - y)) (Rabs inc) n ->
  far2 stop inc small (y + INR (min k n) * inc) = (k <? n)%nat.
Proof.
  intros y stop inc small n k D F. unfold far2.
  assert (I0 : inc <> 0) by (intro E; rewrite E in D; lra).
  assert (P : 0 < Rabs inc) by (apply Rabs_pos_lt; exact I0).
  rewrite orSmall_pos by lra.
  destruct (Nat.ltb_spec k n) as [L | L].
  - rewrite Nat.min_l by lia. apply Rgeb_true.
    pose proof (fits_lt _ _ _ _ P F L) as G.
    destruct (Rlt_dec 0 inc) as [Q | Q].
    + rewrite (Rabs_right inc) in * by lra. rewrite (Rabs_right (stop - y)) in G by nra.
      rewrite Rabs_right by nra. nra.
    + assert (inc < 0) by lra. rewrite (Rabs_left inc) in * by lra.
      rewrite (Rabs_left (stop - y)) in G by nra. rewrite Rabs_left by nra. nra.
  - rewrite Nat.min_r by lia. apply Rgeb_false. destruct F as [A B]. rewrite S_INR in B.
    destruct (Rlt_dec 0 inc) as [Q | Q].
    + rewrite (Rabs_right inc) in * by lra. rewrite (Rabs_right (stop - y)) in A, B by nra.
      rewrite Rabs_right by nra. nra.
    + assert (inc < 0) by lra. rewrite (Rabs_left inc) in * by lra.
      rewrite (Rabs_left (stop - y)) in A, B by nra. rewrite Rabs_left1 by nra. nra.
Qed.

Lemma ref_nonzero : forall y stop inc n k, 0 < inc * (stop - y) -> 0 < y * stop ->
  fits (Rabs (stop - y)) (Rabs inc) n -> y + INR (min k n) * inc <> 0.
Proof.
  intros y stop inc n k D Z [A _].
  assert (L : INR (min k n) <= INR n) by (apply le_INR; lia).
  assert (L0 : 0 <= INR (min k n)) by (apply pos_INR).
  destruct (Rlt_dec 0 inc) as [Q | Q].
  - rewrite (Rabs_right inc) in A by lra. rewrite (Rabs_right (stop - y)) in A by nra.
    assert (M : INR (min k n) * inc <= stop - y) by nra.
    assert (M0 : 0 <= INR (min k n) * inc) by nra.
    intro E. nra.
  - assert (inc < 0) by (destruct (Req_dec inc 0) as [E0 | E0]; [rewrite E0 in D; lra | lra]).
    rewrite (Rabs_left inc) in A by lra.
    rewrite (Rabs_left (stop - y)) in A by nra.
    assert (M : INR (min k n) * inc >= stop - y) by nra.
    assert (M0 : INR (min k n) * inc <= 0) by nra.
    intro E. nra.
Qed.

(** ** Temperature and pressure *)

Section Runs.
Variable correctTH correctTS correctPV : nat -> St -> R.
Variable c : Cfg.
Variable solve : nat -> St -> St.
Hypothesis Hsolve : keepsPath c solve.

Let step := step correctTH correctTS correctPV c.
Let visited := visited correctTH correctTS correctPV c solve.
Let goesOn := goesOn correctTH correctTS correctPV c solve.

Lemma stepT_plain : forall n s, isenthalpic c = false -> isentropic c = false ->
  stepT correctTH correctTS c n s
  = (far1 (Tstop c) (Tinc c) (Tstart s), if far1 (Tstop c) (Tinc c) (Tstart s) then moveT c s else s).
Proof.
  intros n s E F. unfold stepT, atH, atS. rewrite E, F. cbn [andb negb].
  change (farT c s) with (far1 (Tstop c) (Tinc c) (Tstart s)).
  rewrite !andb_false_r, !andb_true_r.
  destruct (far1 (Tstop c) (Tinc c) (Tstart s)); reflexivity.
Qed.

Lemma stepP_plain : forall n s, isochoric c = false ->
  stepP correctPV c n s
  = (far1 (Pstop c) (Pinc c) (Pstart s), if far1 (Pstop c) (Pinc c) (Pstart s) then moveP c s else s).
Proof.
  intros n s E. unfold stepP, atV. rewrite E. cbn [andb negb].
  change (farP c s) with (far1 (Pstop c) (Pinc c) (Pstart s)).
  rewrite !andb_false_r, !andb_true_r.
  destruct (far1 (Pstop c) (Pinc c) (Pstart s)); reflexivity.
Qed.

(** What each part leaves alone. *)
Lemma stepT_P : forall n s, Pstart (snd (stepT correctTH correctTS c n s)) = Pstart s
  /\ sP (snd (stepT correctTH correctTS c n s)) = sP s
  /\ assimMass (snd (stepT correctTH correctTS c n s)) = assimMass s
  /\ refV (snd (stepT correctTH correctTS c n s)) = refV s.
Proof.
  intros n s. unfold stepT, moveT, moveH, moveS.
  repeat match goal with |- context [if ?b then _ else _] => destruct b end;
    repeat split; reflexivity.
Qed.

Lemma stepT_start : forall n s, (isenthalpic c = true /\ refH s <> 0) \/ (isentropic c = true /\ refS s <> 0) ->
  Tstart (snd (stepT correctTH correctTS c n s)) = Tstart s.
Proof.
  intros n s H. unfold stepT, atH, atS.
  assert (E : negb (isenthalpic c && nonzero (refH s)) && negb (isentropic c && nonzero (refS s)) = false).
  { destruct H as [[E F] | [E F]]; rewrite E, (nonzero_true _ F); cbn [andb negb];
      rewrite ?andb_false_r; reflexivity. }
  rewrite <- andb_assoc, E, andb_false_r. unfold moveH, moveS.
  repeat match goal with |- context [if ?b then _ else _] => destruct b end; reflexivity.
Qed.

Lemma stepP_T : forall n s, Tstart (snd (stepP correctPV c n s)) = Tstart s
  /\ sT (snd (stepP correctPV c n s)) = sT s
  /\ assimMass (snd (stepP correctPV c n s)) = assimMass s
  /\ refH (snd (stepP correctPV c n s)) = refH s
  /\ refS (snd (stepP correctPV c n s)) = refS s.
Proof.
  intros n s. unfold stepP, moveP, moveV.
  repeat match goal with |- context [if ?b then _ else _] => destruct b end;
    repeat split; reflexivity.
Qed.

Lemma stepA_start : forall n s, Tstart (snd (stepA correctTH correctTS correctPV c n s)) = Tstart s
  /\ Pstart (snd (stepA correctTH correctTS correctPV c n s)) = Pstart s
  /\ (isenthalpic c = false -> isentropic c = false ->
      sT (snd (stepA correctTH correctTS correctPV c n s)) = sT s)
  /\ (isochoric c = false -> sP (snd (stepA correctTH correctTS correctPV c n s)) = sP s).
Proof.
  intros n s. unfold stepA.
  destruct (assimilate c && Rltb (assimMass s) (dspAssimMass c)); [| repeat split; reflexivity].
  cbv zeta. cbn [snd]. unfold atH, atS, atV.
  destruct (isenthalpic c), (isentropic c), (isochoric c); cbn [andb];
    repeat match goal with |- context [if ?b then _ else _] => destruct b end;
    repeat split; try reflexivity; intros; discriminate.
Qed.

Lemma step_split : forall n s,
  let s1 := snd (stepT correctTH correctTS c n s) in
  let s2 := snd (stepP correctPV c n s1) in
  step n s = (fst (stepT correctTH correctTS c n s) || fst (stepP correctPV c n s1)
              || fst (stepA correctTH correctTS correctPV c n s2),
              snd (stepA correctTH correctTS correctPV c n s2)).
Proof.
  intros n s. cbv zeta. unfold step, PathModel.step.
  destruct (stepT correctTH correctTS c n s) as [b1 s1]. cbn [fst snd].
  destruct (stepP correctPV c n s1) as [b2 s2]. cbn [fst snd].
  destruct (stepA correctTH correctTS correctPV c n s2) as [b3 s3]. reflexivity.
Qed.

Lemma moveT_start : forall s, Tstart (moveT c s) = move1 (Tstop c) (Tinc c) (Tstart s).
Proof. intros s. unfold moveT, move1. destruct (Rltb (Tstart s - Tstop c) 0); reflexivity. Qed.
Lemma moveT_T : forall s, sT (moveT c s) = sT s + (Tstart (moveT c s) - Tstart s).
Proof. intros s. unfold moveT. destruct (Rltb (Tstart s - Tstop c) 0);
  cbn [withTstart withT sT Tstart]; ring. Qed.
Lemma moveP_start : forall s, Pstart (moveP c s) = move1 (Pstop c) (Pinc c) (Pstart s).
Proof. intros s. unfold moveP, move1. destruct (Rltb (Pstart s - Pstop c) 0); reflexivity. Qed.
Lemma moveP_P : forall s, sP (moveP c s) = sP s + (Pstart (moveP c s) - Pstart s).
Proof. intros s. unfold moveP. destruct (Rltb (Pstart s - Pstop c) 0);
  cbn [withPstart withP sP Pstart]; ring. Qed.

Lemma visited_T : isenthalpic c = false -> isentropic c = false -> forall s k,
  Tstart (visited s k) = iter1 (Tstop c) (Tinc c) (Tstart s) k
  /\ sT (visited s k) = sT s + (iter1 (Tstop c) (Tinc c) (Tstart s) k - Tstart s).
Proof.
  intros E F s. induction k as [| k [IH1 IH2]].

  - destruct (Hsolve O s) as (A & _ & _ & _ & B & _). unfold visited. cbn [PathModel.visited iter1].
    rewrite A, (B E F). split; [reflexivity | ring].
  - unfold visited. cbn [PathModel.visited iter1]. cbv zeta.
    fold (visited s k). fold step.
    destruct (Hsolve (S k) (snd (step k (visited s k)))) as (A & _ & _ & _ & B & _).
    rewrite A, (B E F). clear A B.
    rewrite step_split. cbv zeta. cbn [snd]. rewrite !stepT_plain by assumption. cbn [snd].
    set (s1 := if far1 (Tstop c) (Tinc c) (Tstart (visited s k)) then moveT c (visited s k) else visited s k).
    destruct (stepA_start k (snd (stepP correctPV c k s1))) as (A1 & _ & A2 & _).
    destruct (stepP_T k s1) as (P1 & P2 & _).
    rewrite A1, (A2 E F), P1, P2.
    assert (S1 : Tstart s1 = iter1 (Tstop c) (Tinc c) (Tstart s) (S k)).
    { cbn [iter1]. cbv zeta. rewrite <- IH1. unfold s1.
      destruct (far1 (Tstop c) (Tinc c) (Tstart (visited s k))); [apply moveT_start | reflexivity]. }
    split; [exact S1 |].
    change (let y := iter1 (Tstop c) (Tinc c) (Tstart s) k in
            if far1 (Tstop c) (Tinc c) y then move1 (Tstop c) (Tinc c) y else y)
      with (iter1 (Tstop c) (Tinc c) (Tstart s) (S k)).
    assert (S2 : sT s1 = sT (visited s k) + (Tstart s1 - Tstart (visited s k))).
    { unfold s1. destruct (far1 (Tstop c) (Tinc c) (Tstart (visited s k))); [apply moveT_T | ring]. }
    cbv zeta in *. rewrite S2, IH2, IH1, S1. cbn [iter1]. ring.
Qed.

Lemma visited_P : isochoric c = false -> forall s k,
  Pstart (visited s k) = iter1 (Pstop c) (Pinc c) (Pstart s) k
  /\ sP (visited s k) = sP s + (iter1 (Pstop c) (Pinc c) (Pstart s) k - Pstart s).
Proof.
  intros E s. induction k as [| k [IH1 IH2]].
  - destruct (Hsolve O s) as (_ & A & _ & _ & _ & B & _). unfold visited. cbn [PathModel.visited iter1].
    rewrite A, (B E). split; [reflexivity | ring].
  - unfold visited. cbn [PathModel.visited iter1].
    fold (visited s k). fold step.
    destruct (Hsolve (S k) (snd (step k (visited s k)))) as (_ & A & _ & _ & _ & B & _).
    rewrite A, (B E). clear A B.
    rewrite step_split. cbv zeta. cbn [snd].
    destruct (stepT_P k (visited s k)) as (T1 & T2 & _).
    set (s0 := snd (stepT correctTH correctTS c k (visited s k))) in *.
    rewrite !stepP_plain by assumption. cbn [snd].
    set (s1 := if far1 (Pstop c) (Pinc c) (Pstart s0) then moveP c s0 else s0).
    destruct (stepA_start k s1) as (_ & A1 & _ & A2).
    rewrite A1, (A2 E).
    assert (S1 : Pstart s1 = iter1 (Pstop c) (Pinc c) (Pstart s) (S k)).
    { cbn [iter1]. cbv zeta. rewrite <- IH1, <- T1. unfold s1.
      destruct (far1 (Pstop c) (Pinc c) (Pstart s0)); [apply moveP_start | reflexivity]. }
    assert (S2 : sP s1 = sP s0 + (Pstart s1 - Pstart s0)).
    { unfold s1. destruct (far1 (Pstop c) (Pinc c) (Pstart s0)); [apply moveP_P | ring]. }
    split; [exact S1 |]. rewrite S2, T2, T1, IH2, IH1, S1. cbn [iter1]. cbv zeta. ring.
Qed.

(** Assimilated mass: independent of everything else. *)
Fixpoint iterA (m : R) (k : nat) : R :=
  match k with
  | O => m
  | S j => let y := iterA m j in
           if assimilate c && Rltb y (dspAssimMass c) then y + 1 / dspAssimInc c * dspAssimMass c else y
  end.

Lemma stepA_mass : forall n s,
  fst (stepA correctTH correctTS correctPV c n s) = assimilate c && Rltb (assimMass s) (dspAssimMass c)
  /\ assimMass (snd (stepA correctTH correctTS correctPV c n s))
     = if assimilate c && Rltb (assimMass s) (dspAssimMass c)
       then assimMass s + 1 / dspAssimInc c * dspAssimMass c else assimMass s.
Proof.
  intros n s. unfold stepA.
  destruct (assimilate c && Rltb (assimMass s) (dspAssimMass c)); [| split; reflexivity].
  cbv zeta. cbn [fst snd]. split; [reflexivity |].
  repeat match goal with |- context [if ?b then _ else _] => destruct b end; reflexivity.
Qed.

Lemma visited_A : forall s k, assimMass (visited s k) = iterA (assimMass s) k.
Proof.
  intros s. induction k as [| k IH].
  - destruct (Hsolve O s) as (_ & _ & A & _). exact A.
  - unfold visited. cbn [PathModel.visited iterA]. cbv zeta. fold (visited s k). fold step.
    destruct (Hsolve (S k) (snd (step k (visited s k)))) as (_ & _ & A & _). rewrite A.
    rewrite step_split. cbv zeta. cbn [snd].
    rewrite (proj2 (stepA_mass _ _)).
    destruct (stepP_T k (snd (stepT correctTH correctTS c k (visited s k)))) as (_ & _ & Q & _).
    destruct (stepT_P k (visited s k)) as (_ & _ & Q2 & _).
    rewrite Q, Q2, IH. reflexivity.
Qed.

(** The mass after k of a portions. *)
Lemma iterA_portions : forall a, assimilate c = true -> dspAssimInc c = INR a -> (0 < a)%nat ->
  0 < dspAssimMass c ->
  forall k, iterA 0 k = INR (min k a) / INR a * dspAssimMass c
            /\ assimilate c && Rltb (iterA 0 k) (dspAssimMass c) = (k <? a)%nat.
Proof.
  intros a Ha Hi Ha0 Hm.
  assert (A0 : 0 < INR a) by (apply lt_0_INR; exact Ha0).
  assert (LT : forall k, Rltb (INR (min k a) / INR a * dspAssimMass c) (dspAssimMass c) = (k <? a)%nat).
  { intros k. destruct (Nat.ltb_spec k a) as [L | L].
    - rewrite Nat.min_l by lia. apply Rltb_true.
      assert (Q : INR k / INR a < 1).
      { apply (Rmult_lt_reg_r (INR a)); [exact A0 |]. unfold Rdiv.
        rewrite Rmult_assoc, Rinv_l by lra. pose proof (lt_INR _ _ L). lra. }
      nra.
    - rewrite Nat.min_r by lia. apply Rltb_false. unfold Rdiv. rewrite Rinv_r by lra. lra. }
  intros k. assert (E : iterA 0 k = INR (min k a) / INR a * dspAssimMass c).
  { induction k as [| k IH].
    - cbn [iterA Nat.min]. change (INR 0) with 0. unfold Rdiv. ring.
    - cbn [iterA]. cbv zeta. rewrite IH, LT, Ha, Hi. cbn [andb].
      destruct (Nat.ltb_spec k a) as [L | L].
      + rewrite !Nat.min_l by lia. rewrite S_INR. field. lra.
      + rewrite !Nat.min_r by lia. reflexivity. }
  split; [exact E |]. rewrite E, LT, Ha. reflexivity.
Qed.

(** ** C21 *)

(** Any increment, any start and stop: the temperatures visited are equally spaced, run from the
    start towards the stop value without passing it, and the last is less than one increment
    short of it. *)
Theorem C21_temperatures : forall s,
  isenthalpic c = false -> isentropic c = false -> sT s = Tstart s -> 0 < Tinc c ->
  exists n,
    fits (Rabs (Tstart s - Tstop c)) (Tinc c) n
    /\ (forall k, sT (visited s k) = pathAt (Tstart s) (Tstop c) (Tinc c) n k)
    /\ (forall k, Rmin (Tstart s) (Tstop c) <= sT (visited s k) <= Rmax (Tstart s) (Tstop c))
    /\ (forall k, (n <= k)%nat -> Rabs (sT (visited s k) - Tstop c) < Tinc c).
Proof.
  intros s E F ST I.
  destruct (fits_exists (Rabs (Tstart s - Tstop c)) (Tinc c) (Rabs_pos _) I) as [n Fn].
  exists n. split; [exact Fn |].
  assert (V : forall k, sT (visited s k) = pathAt (Tstart s) (Tstop c) (Tinc c) n k).
  { intros k. rewrite (proj2 (visited_T E F s k)), ST.
    rewrite (proj1 (iter1_path _ _ _ _ I Fn k)). ring. }
  split; [exact V |]. split.
  - intros k. rewrite V. destruct Fn as [A _]. unfold pathAt.
    assert (L : INR (min k n) <= INR n) by (apply le_INR; lia).
    assert (L0 : 0 <= INR (min k n)) by apply pos_INR.
    destruct (Rlt_dec (Tstart s) (Tstop c)) as [D | D].
    + rewrite Rmin_left, Rmax_right by lra. rewrite Rabs_left in A by lra. nra.
    + rewrite Rmin_right, Rmax_left by lra. rewrite Rabs_right in A by lra. nra.
  - intros k L. rewrite V. unfold pathAt. rewrite Nat.min_r by lia. destruct Fn as [A B].
    rewrite S_INR in B. destruct (Rlt_dec (Tstart s) (Tstop c)) as [D | D].
    + rewrite Rabs_left in A, B by lra. rewrite Rabs_left1 by nra. nra.
    + rewrite Rabs_right in A, B by lra. rewrite Rabs_right by nra. nra.
Qed.

Theorem C21_pressures : forall s,
  isochoric c = false -> sP s = Pstart s -> 0 < Pinc c ->
  exists n,
    fits (Rabs (Pstart s - Pstop c)) (Pinc c) n
    /\ (forall k, sP (visited s k) = pathAt (Pstart s) (Pstop c) (Pinc c) n k)
    /\ (forall k, Rmin (Pstart s) (Pstop c) <= sP (visited s k) <= Rmax (Pstart s) (Pstop c))
    /\ (forall k, (n <= k)%nat -> Rabs (sP (visited s k) - Pstop c) < Pinc c).
Proof.
  intros s E ST I.
  destruct (fits_exists (Rabs (Pstart s - Pstop c)) (Pinc c) (Rabs_pos _) I) as [n Fn].
  exists n. split; [exact Fn |].
  assert (V : forall k, sP (visited s k) = pathAt (Pstart s) (Pstop c) (Pinc c) n k).
  { intros k. rewrite (proj2 (visited_P E s k)), ST.
    rewrite (proj1 (iter1_path _ _ _ _ I Fn k)). ring. }
  split; [exact V |]. split.
  - intros k. rewrite V. destruct Fn as [A _]. unfold pathAt.
    assert (L : INR (min k n) <= INR n) by (apply le_INR; lia).
    assert (L0 : 0 <= INR (min k n)) by apply pos_INR.
    destruct (Rlt_dec (Pstart s) (Pstop c)) as [D | D].
    + rewrite Rmin_left, Rmax_right by lra. rewrite Rabs_left in A by lra. nra.
    + rewrite Rmin_right, Rmax_left by lra. rewrite Rabs_right in A by lra. nra.
  - intros k L. rewrite V. unfold pathAt. rewrite Nat.min_r by lia. destruct Fn as [A B].
    rewrite S_INR in B. destruct (Rlt_dec (Pstart s) (Pstop c)) as [D | D].
    + rewrite Rabs_left in A, B by lra. rewrite Rabs_left1 by nra. nra.
    + rewrite Rabs_right in A, B by lra. rewrite Rabs_right by nra. nra.
Qed.

(** The run goes on exactly as long as the temperature, the pressure or the assimilation has
    steps left: it ends after the largest of the three numbers of steps. *)
Theorem C21_run_ends : forall s nT nP nA,
  isenthalpic c = false -> isentropic c = false -> isochoric c = false ->
  0 < Tinc c -> 0 < Pinc c ->
  fits (Rabs (Tstart s - Tstop c)) (Tinc c) nT ->
  fits (Rabs (Pstart s - Pstop c)) (Pinc c) nP ->
  (assimilate c = false /\ nA = 0%nat \/
   assimilate c = true /\ dspAssimInc c = INR nA /\ (0 < nA)%nat /\ 0 < dspAssimMass c /\ assimMass s = 0) ->
  forall k, goesOn s k = (k <? max nT (max nP nA))%nat.
Proof.
  intros s nT nP nA EH ES EV IT IP FT FP HA k.
  unfold goesOn, PathModel.goesOn. fold step. fold (visited s k).
  rewrite step_split. cbv zeta. cbn [fst].
  rewrite !stepT_plain by assumption. cbn [fst snd].
  rewrite (proj1 (visited_T EH ES s k)), (proj2 (iter1_path _ _ _ _ IT FT k)).
  set (s1 := if (k <? nT)%nat then moveT c (visited s k) else visited s k).
  assert (P1 : Pstart s1 = Pstart (visited s k)).
  { unfold s1, moveT. destruct (k <? nT)%nat; [| reflexivity].
    destruct (Rltb (Tstart (visited s k) - Tstop c) 0); reflexivity. }
  assert (M1 : assimMass s1 = assimMass (visited s k)).
  { unfold s1, moveT. destruct (k <? nT)%nat; [| reflexivity].
    destruct (Rltb (Tstart (visited s k) - Tstop c) 0); reflexivity. }
  rewrite (proj1 (stepA_mass _ _)).
  destruct (stepP_T k s1) as (_ & _ & Q & _). rewrite Q, M1, visited_A.
  rewrite !stepP_plain by assumption. cbn [fst snd].
  rewrite P1, (proj1 (visited_P EV s k)), (proj2 (iter1_path _ _ _ _ IP FP k)).
  assert (A : assimilate c && Rltb (iterA (assimMass s) k) (dspAssimMass c) = (k <? nA)%nat).
  { destruct HA as [[Z1 Z2] | (Z1 & Z2 & Z3 & Z4 & Z5)].
    - rewrite Z1, Z2. reflexivity.
    - rewrite Z5. apply (iterA_portions nA Z1 Z2 Z3 Z4 k). }
  rewrite A.
  destruct (Nat.ltb_spec k nT), (Nat.ltb_spec k nP), (Nat.ltb_spec k nA);
    destruct (Nat.ltb_spec k (max nT (max nP nA))); cbn [orb]; try reflexivity; lia.
Qed.

(** ** C66: assimilation in portions (exact arithmetic) *)
Theorem C66_portions : forall s a,
  assimilate c = true -> dspAssimInc c = INR a -> (0 < a)%nat -> 0 < dspAssimMass c ->
  assimMass s = 0 ->
  forall k, assimMass (visited s k) = INR (min k a) / INR a * dspAssimMass c.
Proof.
  intros s a Ha Hi H0 Hm Hs k. rewrite visited_A, Hs.
  apply (iterA_portions a Ha Hi H0 Hm k).
Qed.

(** ** C21 at imposed enthalpy, entropy or volume *)

Lemma Reqb_false : forall x y, x <> y -> Reqb x y = false.
Proof. intros x y H. unfold Reqb. destruct (Req_EM_T x y); [contradiction | reflexivity]. Qed.

Lemma stepT_H : forall n s, isenthalpic c = true -> isentropic c = false ->
  refH s <> 0 -> Hstop c <> 0 ->
  stepT correctTH correctTS c n s
  = if far2 (Hstop c) (Hinc c) (1/1000) (refH s) then (true, moveH correctTH c n s) else (false, s).
Proof.
  intros n s E F N S0. unfold stepT, atH, atS. rewrite E, F, (nonzero_true _ N).
  rewrite (Rltb_true 0 (Rabs (Hstop c))) by (apply Rabs_pos_lt; exact S0).
  rewrite (Reqb_false _ _ S0).
  change (Rgeb (Rabs (Hstop c - refH s)) (orSmall (Rabs (Hinc c)) (1/1000)))
    with (far2 (Hstop c) (Hinc c) (1/1000) (refH s)).
  cbn [andb negb]. rewrite !andb_false_r, !andb_true_r. cbn [andb].
  destruct (far2 (Hstop c) (Hinc c) (1/1000) (refH s)); reflexivity.
Qed.

Lemma stepT_S : forall n s, isenthalpic c = false -> isentropic c = true ->
  refS s <> 0 -> Sstop c <> 0 ->
  stepT correctTH correctTS c n s
  = if far2 (Sstop c) (Sinc c) (1/1000) (refS s) then (true, moveS correctTS c n s) else (false, s).
Proof.
  intros n s E F N S0. unfold stepT, atH, atS. rewrite E, F, (nonzero_true _ N).
  rewrite (Rltb_true 0 (Rabs (Sstop c))) by (apply Rabs_pos_lt; exact S0).
  rewrite (Reqb_false _ _ S0).
  change (Rgeb (Rabs (Sstop c - refS s)) (orSmall (Rabs (Sinc c)) (1/1000)))
    with (far2 (Sstop c) (Sinc c) (1/1000) (refS s)).
  cbn [andb negb]. rewrite !andb_false_r, !andb_true_r. cbn [andb].
  destruct (far2 (Sstop c) (Sinc c) (1/1000) (refS s)); reflexivity.
Qed.

Lemma stepP_V : forall n s, isochoric c = true -> refV s <> 0 -> Vstop c <> 0 ->
  stepP correctPV c n s
  = if far2 (Vstop c) (Vinc c) (1/10000) (refV s) then (true, moveV correctPV c n s) else (false, s).
Proof.
  intros n s E N S0. unfold stepP, atV. rewrite E, (nonzero_true _ N).
  rewrite (Rltb_true 0 (Rabs (Vstop c))) by (apply Rabs_pos_lt; exact S0).
  rewrite (Reqb_false _ _ S0).
  change (Rgeb (Rabs (Vstop c - refV s)) (orSmall (Rabs (Vinc c)) (1/10000)))
    with (far2 (Vstop c) (Vinc c) (1/10000) (refV s)).
  cbn [andb negb]. rewrite !andb_false_r, !andb_true_r. cbn [andb].
  destruct (far2 (Vstop c) (Vinc c) (1/10000) (refV s)); reflexivity.
Qed.

Lemma stepA_off : forall n s, assimilate c = false ->
  stepA correctTH correctTS correctPV c n s = (false, s).
Proof. intros n s E. unfold stepA. rewrite E. reflexivity. Qed.

Lemma min_next : forall y inc k n,
  (if (k <? n)%nat then y + INR (min k n) * inc + inc else y + INR (min k n) * inc)
  = y + INR (min (S k) n) * inc.
Proof.
  intros y inc k n. destruct (Nat.ltb_spec k n) as [L | L].
  - rewrite !Nat.min_l by lia. rewrite S_INR. ring.
  - rewrite !Nat.min_r by lia. reflexivity.
Qed.

Lemma visited_H : forall s n, isenthalpic c = true -> isentropic c = false -> assimilate c = false ->
  0 < Hinc c * (Hstop c - refH s) -> 0 < refH s * Hstop c ->
  fits (Rabs (Hstop c - refH s)) (Rabs (Hinc c)) n ->
  forall k, refH (visited s k) = refH s + INR (min k n) * Hinc c.
Proof.
  intros s n E F G D Z Fn.
  assert (S0 : Hstop c <> 0) by (intro E0; rewrite E0 in Z; lra).
  induction k as [| k IH].
  - cbn [Nat.min]. change (INR 0) with 0. unfold visited. cbn [PathModel.visited].
    destruct (Hsolve O s) as (_ & _ & _ & _ & _ & _ & Q & _). rewrite Q; [ring |].
    intro E0; rewrite E0 in Z; lra.
  - unfold visited. cbn [PathModel.visited]. fold (visited s k). fold step.
    assert (N : refH (visited s k) <> 0) by (rewrite IH; apply (ref_nonzero _ _ _ _ _ D Z Fn)).
    assert (K : refH (snd (step k (visited s k))) = refH s + INR (min (S k) n) * Hinc c).
    { rewrite step_split. cbv zeta. cbn [snd]. rewrite !stepA_off by assumption. cbn [snd].
      destruct (stepP_T k (snd (stepT correctTH correctTS c k (visited s k)))) as (_ & _ & _ & Q & _).
      rewrite Q, stepT_H by assumption.
      rewrite <- min_next, <- (ref_far (refH s) (Hstop c) (Hinc c) (1/1000) n k D Fn), <- IH.
      destruct (far2 (Hstop c) (Hinc c) (1/1000) (refH (visited s k))); reflexivity. }
    destruct (Hsolve (S k) (snd (step k (visited s k)))) as (_ & _ & _ & _ & _ & _ & Q & _).
    rewrite Q; [exact K |]. rewrite K. apply (ref_nonzero _ _ _ _ _ D Z Fn).
Qed.

Lemma visited_S : forall s n, isenthalpic c = false -> isentropic c = true -> assimilate c = false ->
  0 < Sinc c * (Sstop c - refS s) -> 0 < refS s * Sstop c ->
  fits (Rabs (Sstop c - refS s)) (Rabs (Sinc c)) n ->
  forall k, refS (visited s k) = refS s + INR (min k n) * Sinc c.
Proof.
  intros s n E F G D Z Fn.
  assert (S0 : Sstop c <> 0) by (intro E0; rewrite E0 in Z; lra).
  induction k as [| k IH].
  - cbn [Nat.min]. change (INR 0) with 0. unfold visited. cbn [PathModel.visited].
    destruct (Hsolve O s) as (_ & _ & _ & _ & _ & _ & _ & Q & _). rewrite Q; [ring |].
    intro E0; rewrite E0 in Z; lra.
  - unfold visited. cbn [PathModel.visited]. fold (visited s k). fold step.
    assert (N : refS (visited s k) <> 0) by (rewrite IH; apply (ref_nonzero _ _ _ _ _ D Z Fn)).
    assert (K : refS (snd (step k (visited s k))) = refS s + INR (min (S k) n) * Sinc c).
    { rewrite step_split. cbv zeta. cbn [snd]. rewrite !stepA_off by assumption. cbn [snd].
      destruct (stepP_T k (snd (stepT correctTH correctTS c k (visited s k)))) as (_ & _ & _ & _ & Q).
      rewrite Q, stepT_S by assumption.
      rewrite <- min_next, <- (ref_far (refS s) (Sstop c) (Sinc c) (1/1000) n k D Fn), <- IH.
      destruct (far2 (Sstop c) (Sinc c) (1/1000) (refS (visited s k))); reflexivity. }
    destruct (Hsolve (S k) (snd (step k (visited s k)))) as (_ & _ & _ & _ & _ & _ & _ & Q & _).
    rewrite Q; [exact K |]. rewrite K. apply (ref_nonzero _ _ _ _ _ D Z Fn).
Qed.

Lemma visited_V : forall s n, isochoric c = true -> assimilate c = false ->
  0 < Vinc c * (Vstop c - refV s) -> 0 < refV s * Vstop c ->
  fits (Rabs (Vstop c - refV s)) (Rabs (Vinc c)) n ->
  forall k, refV (visited s k) = refV s + INR (min k n) * Vinc c.
Proof.
  intros s n E G D Z Fn.
  assert (S0 : Vstop c <> 0) by (intro E0; rewrite E0 in Z; lra).
  induction k as [| k IH].
  - cbn [Nat.min]. change (INR 0) with 0. unfold visited. cbn [PathModel.visited].
    destruct (Hsolve O s) as (_ & _ & _ & _ & _ & _ & _ & _ & Q). rewrite Q; [ring |].
    intro E0; rewrite E0 in Z; lra.
  - unfold visited. cbn [PathModel.visited]. fold (visited s k). fold step.
    assert (N : refV (visited s k) <> 0) by (rewrite IH; apply (ref_nonzero _ _ _ _ _ D Z Fn)).
    assert (K : refV (snd (step k (visited s k))) = refV s + INR (min (S k) n) * Vinc c).
    { rewrite step_split. cbv zeta. cbn [snd]. rewrite !stepA_off by assumption. cbn [snd].
      destruct (stepT_P k (visited s k)) as (_ & _ & _ & Q).
      rewrite stepP_V by (rewrite ?Q; assumption). rewrite Q.
      rewrite <- min_next, <- (ref_far (refV s) (Vstop c) (Vinc c) (1/10000) n k D Fn), <- IH.
      destruct (far2 (Vstop c) (Vinc c) (1/10000) (refV (visited s k))); cbn [snd]; [| exact Q].
      unfold moveV. cbv zeta. cbn [withP withV refV]. rewrite Q. reflexivity. }
    destruct (Hsolve (S k) (snd (step k (visited s k)))) as (_ & _ & _ & _ & _ & _ & _ & _ & Q).
    rewrite Q; [exact K |]. rewrite K. apply (ref_nonzero _ _ _ _ _ D Z Fn).
Qed.

(** The reference enthalpy goes from its first value to its stop value in equal steps, and the
    run ends when it has arrived (less than one increment short) and the pressure has too. *)
Theorem C21_enthalpies : forall s n nP,
  isenthalpic c = true -> isentropic c = false -> isochoric c = false -> assimilate c = false ->
  0 < Hinc c * (Hstop c - refH s) -> 0 < refH s * Hstop c -> 0 < Pinc c ->
  fits (Rabs (Hstop c - refH s)) (Rabs (Hinc c)) n ->
  fits (Rabs (Pstart s - Pstop c)) (Pinc c) nP ->
  forall k, refH (visited s k) = refH s + INR (min k n) * Hinc c
            /\ goesOn s k = (k <? max n nP)%nat.
Proof.
  intros s n nP E F I G D Z IP Fn FP k.
  pose proof (visited_H s n E F G D Z Fn k) as V. split; [exact V |].
  assert (S0 : Hstop c <> 0) by (intro E0; rewrite E0 in Z; lra).
  assert (N : refH (visited s k) <> 0) by (rewrite V; apply (ref_nonzero _ _ _ _ _ D Z Fn)).
  unfold goesOn, PathModel.goesOn. fold step. fold (visited s k).
  rewrite step_split. cbv zeta. cbn [fst]. rewrite !stepA_off by assumption. cbn [fst].
  rewrite !stepP_plain by assumption. cbn [fst].
  destruct (stepT_P k (visited s k)) as (Q & _). rewrite Q.
  rewrite (proj1 (visited_P I s k)), (proj2 (iter1_path _ _ _ _ IP FP k)).
  rewrite stepT_H by assumption. rewrite V, (ref_far _ _ _ (1/1000) _ k D Fn).
  destruct (Nat.ltb_spec k n), (Nat.ltb_spec k nP), (Nat.ltb_spec k (max n nP));
    cbn [fst orb]; try reflexivity; lia.
Qed.

Theorem C21_entropies : forall s n nP,
  isenthalpic c = false -> isentropic c = true -> isochoric c = false -> assimilate c = false ->
  0 < Sinc c * (Sstop c - refS s) -> 0 < refS s * Sstop c -> 0 < Pinc c ->
  fits (Rabs (Sstop c - refS s)) (Rabs (Sinc c)) n ->
  fits (Rabs (Pstart s - Pstop c)) (Pinc c) nP ->
  forall k, refS (visited s k) = refS s + INR (min k n) * Sinc c
            /\ goesOn s k = (k <? max n nP)%nat.
Proof.
  intros s n nP E F I G D Z IP Fn FP k.
  pose proof (visited_S s n E F G D Z Fn k) as V. split; [exact V |].
  assert (S0 : Sstop c <> 0) by (intro E0; rewrite E0 in Z; lra).
  assert (N : refS (visited s k) <> 0) by (rewrite V; apply (ref_nonzero _ _ _ _ _ D Z Fn)).
  unfold goesOn, PathModel.goesOn. fold step. fold (visited s k).
  rewrite step_split. cbv zeta. cbn [fst]. rewrite !stepA_off by assumption. cbn [fst].
  rewrite !stepP_plain by assumption. cbn [fst].
  destruct (stepT_P k (visited s k)) as (Q & _). rewrite Q.
  rewrite (proj1 (visited_P I s k)), (proj2 (iter1_path _ _ _ _ IP FP k)).
  rewrite stepT_S by assumption. rewrite V, (ref_far _ _ _ (1/1000) _ k D Fn).
  destruct (Nat.ltb_spec k n), (Nat.ltb_spec k nP), (Nat.ltb_spec k (max n nP));
    cbn [fst orb]; try reflexivity; lia.
Qed.

Theorem C21_volumes : forall s n nT,
  isenthalpic c = false -> isentropic c = false -> isochoric c = true -> assimilate c = false ->
  0 < Vinc c * (Vstop c - refV s) -> 0 < refV s * Vstop c -> 0 < Tinc c ->
  fits (Rabs (Vstop c - refV s)) (Rabs (Vinc c)) n ->
  fits (Rabs (Tstart s - Tstop c)) (Tinc c) nT ->
  forall k, refV (visited s k) = refV s + INR (min k n) * Vinc c
            /\ goesOn s k = (k <? max n nT)%nat.
Proof.
  intros s n nT E F I G D Z IT Fn FT k.
  pose proof (visited_V s n I G D Z Fn k) as V. split; [exact V |].
  assert (S0 : Vstop c <> 0) by (intro E0; rewrite E0 in Z; lra).
  assert (N : refV (visited s k) <> 0) by (rewrite V; apply (ref_nonzero _ _ _ _ _ D Z Fn)).
  unfold goesOn, PathModel.goesOn. fold step. fold (visited s k).
  rewrite step_split. cbv zeta. cbn [fst]. rewrite !stepA_off by assumption. cbn [fst].
  destruct (stepT_P k (visited s k)) as (_ & _ & _ & Q).
  rewrite stepP_V by (rewrite ?Q; assumption). rewrite Q.
  rewrite !stepT_plain by assumption. cbn [fst snd].
  rewrite (proj1 (visited_T E F s k)), (proj2 (iter1_path _ _ _ _ IT FT k)).
  rewrite V, (ref_far _ _ _ (1/10000) _ k D Fn).
  destruct (Nat.ltb_spec k n), (Nat.ltb_spec k nT), (Nat.ltb_spec k (max n nT));
    cbn [fst orb]; try reflexivity; lia.
Qed.

(** ** What happens with other increments *)

(** Increment zero with different end points: the run never ends and never moves.  A negative
    increment: it never ends and moves away from the stop value. *)
Theorem C21_refuted_increment : forall s,
  isenthalpic c = false -> isentropic c = false -> sT s = Tstart s ->
  (Tinc c = 0 /\ 1/1000 <= Rabs (Tstart s - Tstop c) \/ Tinc c < 0) ->
  forall k, goesOn s k = true
            /\ Rabs (sT (visited s k) - Tstop c) = Rabs (Tstart s - Tstop c) + INR k * Rabs (Tinc c).
Proof.
  intros s E F ST H.
  assert (J : forall k, Rabs (iter1 (Tstop c) (Tinc c) (Tstart s) k - Tstop c)
                        = Rabs (Tstart s - Tstop c) + INR k * Rabs (Tinc c)
                        /\ far1 (Tstop c) (Tinc c) (iter1 (Tstop c) (Tinc c) (Tstart s) k) = true).
  { assert (FAR : forall x, (Tinc c = 0 -> 1/1000 <= Rabs (x - Tstop c)) ->
                  far1 (Tstop c) (Tinc c) x = true).
    { intros x Hx. unfold far1. apply Rgeb_true. destruct H as [[H0 _] | H0].
      - rewrite H0 in *. unfold orSmall. rewrite nonzero_0. apply Hx. reflexivity.
      - rewrite orSmall_pos by lra. pose proof (Rabs_pos (x - Tstop c)). lra. }
    assert (A0 : forall k, 0 <= INR k * Rabs (Tinc c))
      by (intros k; apply Rmult_le_pos; [apply pos_INR | apply Rabs_pos]).
    induction k as [| k [IH1 IH2]].
    - cbn [iter1]. change (INR 0) with 0. split; [ring |]. apply FAR. intros Z.
      destruct H as [[_ H] | H]; lra.
    - cbn [iter1]. cbv zeta. rewrite IH2.
      assert (IH : Rabs (move1 (Tstop c) (Tinc c) (iter1 (Tstop c) (Tinc c) (Tstart s) k) - Tstop c)
                   = Rabs (Tstart s - Tstop c) + INR (S k) * Rabs (Tinc c)).
      { rewrite S_INR, Rmult_plus_distr_r, <- Rplus_assoc, <- IH1, Rmult_1_l.
        set (x := iter1 (Tstop c) (Tinc c) (Tstart s) k). unfold move1.
        assert (I0 : Tinc c <= 0) by (destruct H as [[H _] | H]; lra).
        rewrite (Rabs_left1 (Tinc c)) by lra.
        destruct (Rlt_dec (x - Tstop c) 0) as [L | L].
        - rewrite Rltb_true by lra. rewrite (Rabs_left (x - Tstop c)) by lra.
          rewrite Rabs_left by lra. ring.
        - rewrite Rltb_false by lra. rewrite (Rabs_right (x - Tstop c)) by lra.
          rewrite Rabs_right by lra. ring. }
      split; [exact IH |]. apply FAR. intros Z. rewrite IH. pose proof (A0 (S k)).
      destruct H as [[_ H] | H]; lra. }
  intros k. destruct (visited_T E F s k) as [V1 V2]. destruct (J k) as [J1 J2]. split.
  - unfold goesOn, PathModel.goesOn. fold step. fold (visited s k).
    rewrite step_split. cbv zeta. cbn [fst]. rewrite stepT_plain by assumption. cbn [fst].
    rewrite V1, J2. reflexivity.
  - rewrite V2, ST, <- J1. f_equal. ring.
Qed.

(** An enthalpy increment of the wrong sign: the run never ends. *)
Theorem C21_refuted_enthalpy_sign : forall s,
  isenthalpic c = true -> isentropic c = false -> assimilate c = false ->
  Hstop c <> 0 -> Hinc c * (Hstop c - refH s) < 0 -> 0 < Hinc c * refH s ->
  Rabs (Hinc c) <= Rabs (Hstop c - refH s) ->
  forall k, goesOn s k = true.
Proof.
  intros s E F G S0 D Z A.
  assert (N0 : forall k, refH s + INR k * Hinc c <> 0).
  { intros k E0. pose proof (pos_INR k) as P0.
    assert (W : 0 < Hinc c * (refH s + INR k * Hinc c)).
    { rewrite Rmult_plus_distr_l. assert (0 <= Hinc c * (INR k * Hinc c)); [| lra].
      replace (Hinc c * (INR k * Hinc c)) with (INR k * (Hinc c * Hinc c)) by ring.
      apply Rmult_le_pos; [exact P0 | apply Rle_0_sqr]. }
    rewrite E0 in W. lra. }
  assert (FAR : forall k, far2 (Hstop c) (Hinc c) (1/1000) (refH s + INR k * Hinc c) = true).
  { intros k. unfold far2. apply Rgeb_true.
    assert (I0 : Hinc c <> 0) by (intro E0; rewrite E0 in Z; lra).
    rewrite orSmall_pos by (apply Rabs_no_R0; exact I0).
    pose proof (pos_INR k) as P0.
    destruct (Rlt_dec 0 (Hinc c)) as [Q | Q].
    - assert (Hstop c - refH s < 0) by nra.
      assert (0 <= INR k * Hinc c) by nra.
      rewrite (Rabs_left (Hstop c - refH s)) in A by lra. rewrite (Rabs_left1 (_ - _)) by lra. lra.
    - assert (Hinc c < 0) by lra. assert (0 < Hstop c - refH s) by nra.
      assert (INR k * Hinc c <= 0) by nra.
      rewrite (Rabs_right (Hstop c - refH s)) in A by lra. rewrite (Rabs_right (_ - _)) by lra. lra. }
  assert (V : forall k, refH (visited s k) = refH s + INR k * Hinc c).
  { induction k as [| k IH].
    - change (INR 0) with 0. unfold visited. cbn [PathModel.visited].
      destruct (Hsolve O s) as (_ & _ & _ & _ & _ & _ & Q & _). rewrite Q; [ring |].
      intro E0; rewrite E0 in Z; lra.
    - unfold visited. cbn [PathModel.visited]. fold (visited s k). fold step.
      assert (K : refH (snd (step k (visited s k))) = refH s + INR (S k) * Hinc c).
      { rewrite step_split. cbv zeta. cbn [snd]. rewrite !stepA_off by assumption. cbn [snd].
        destruct (stepP_T k (snd (stepT correctTH correctTS c k (visited s k)))) as (_ & _ & _ & Q & _).
        rewrite Q, stepT_H by (rewrite ?IH; auto). rewrite IH, FAR. cbn [snd].
        unfold moveH. cbv zeta. cbn [withT withH refH]. rewrite IH, S_INR. ring. }
      destruct (Hsolve (S k) (snd (step k (visited s k)))) as (_ & _ & _ & _ & _ & _ & Q & _).
      rewrite Q; [exact K | rewrite K; apply N0]. }
  intros k. unfold goesOn, PathModel.goesOn. fold step. fold (visited s k).
  rewrite step_split. cbv zeta. cbn [fst]. rewrite stepT_H by (rewrite ?V; auto).
  rewrite V, FAR. reflexivity.
Qed.

End Runs.

(** ** C65: the corrections of temperature and pressure *)

(** What the loop guarantees whatever it evaluates: at most fifty iterations; the last residual
    computed is within tolerance unless all fifty were used; and the temperature left behind is
    one update further than the one at which that residual was computed. *)
Lemma correctLoop_result : forall value slope update ref fuel k x,
  let r := correctLoop value slope update ref fuel k x in
  let x1 := fst r in let x0 := fst (snd r) in let n := snd (snd r) in
  (S k <= n <= S (k + fuel))%nat
  /\ x1 = update x0 (value (pred n) x0 - ref) (slope (pred n) x0)
  /\ (n = S (k + fuel) \/ Rabs (value (pred n) x0 - ref) <= tol ref).
Proof.
  intros value slope update ref. induction fuel as [| f IH]; intros k x.
  - cbn. rewrite Nat.add_0_r. repeat split; auto.
  - cbn [correctLoop]. cbv zeta. unfold Rltb.
    destruct (Rlt_dec (tol ref) (Rabs (value k x - ref))) as [L | L].
    + specialize (IH (S k) (update x (value k x - ref) (slope k x))). cbv zeta in IH.
      destruct IH as (A & B & C). split; [lia | split; [exact B |]].
      destruct C as [C | C]; [left; lia | right; exact C].
    + cbn [fst snd pred]. repeat split; try lia. right. lra.
Qed.

Theorem C65_correction_ends : forall value slope update ref x,
  let r := correct value slope update ref x in
  let x0 := fst (snd r) in let n := snd (snd r) in
  (1 <= n <= 50)%nat
  /\ fst r = update x0 (value (pred n) x0 - ref) (slope (pred n) x0)
  /\ (n = 50%nat \/ Rabs (value (pred n) x0 - ref) <= tol ref).
Proof.
  intros value slope update ref x. exact (correctLoop_result value slope update ref 49 0 x).
Qed.

(** One Newton step for a function whose slope varies by a factor of at most 1+q. *)
Lemma newton_step : forall (V V' : R -> R) ref lo hi q,
  (forall x, derivable_pt_lim V x (V' x)) -> (forall x, lo <= V' x <= hi) ->
  0 < lo -> hi <= (1 + q) * lo -> 0 <= q ->
  forall x, Rabs (V (x - (V x - ref) / V' x) - ref) <= q * Rabs (V x - ref).
Proof.
  intros V V' ref lo hi q HD HB Hlo Hhi Hq x.
  set (r := V x - ref).
  assert (B1 := HB x).
  assert (Step : exists c, V (x - r / V' x) - V x = V' c * (- (r / V' x))).
  { destruct (Rtotal_order r 0) as [L | [L | L]].
    - assert (x < x - r / V' x).
      { assert (r / V' x < 0); [| lra]. apply (Rmult_lt_reg_r (V' x)); [lra |].
        unfold Rdiv. rewrite Rmult_assoc, Rinv_l by lra. lra. }
      destruct (MVT_cor2 V V' x (x - r / V' x)) as [c [E _]]; [assumption | intros; apply HD |].
      exists c. rewrite E. ring.
    - exists x. rewrite L. unfold Rdiv. rewrite Rmult_0_l, Ropp_0, Rminus_0_r. ring.
    - assert (x - r / V' x < x).
      { assert (0 < r / V' x); [| lra]. apply (Rmult_lt_reg_r (V' x)); [lra |].
        unfold Rdiv. rewrite Rmult_assoc, Rinv_l by lra. lra. }
      destruct (MVT_cor2 V V' (x - r / V' x) x) as [c [E _]]; [assumption | intros; apply HD |].
      exists c. replace (V (x - r / V' x) - V x) with (- (V x - V (x - r / V' x))) by ring.
      rewrite E. ring. }
  destruct Step as [c E]. assert (B2 := HB c).
  replace (V (x - r / V' x) - ref) with (V (x - r / V' x) - V x + r) by (unfold r; ring).
  rewrite E.
  replace (V' c * - (r / V' x) + r) with ((1 - V' c / V' x) * r) by (field; lra).
  rewrite Rabs_mult. apply Rmult_le_compat_r; [apply Rabs_pos |].
  assert (Q : V' c / V' x <= 1 + q).
  { apply (Rmult_le_reg_r (V' x)); [lra |]. unfold Rdiv. rewrite Rmult_assoc, Rinv_l by lra. nra. }
  assert (Q2 : 1 - q <= V' c / V' x).
  { apply (Rmult_le_reg_r (V' x)); [lra |]. unfold Rdiv. rewrite Rmult_assoc, Rinv_l by lra.
    rewrite Rmult_1_r. assert (V' x <= (1 + q) * V' c) by nra. nra. }
  apply Rabs_le. lra.
Qed.

(** Enthalpy and volume, composition unchanged during the correction: if the heat capacity stays
    within a factor 1+q, the temperature left behind matches the reference to q times the
    tolerance, or to q^50 times the initial error. *)
Theorem C65_correction_accurate : forall (V V' : R -> R) ref lo hi q,
  (forall x, derivable_pt_lim V x (V' x)) -> (forall x, lo <= V' x <= hi) ->
  0 < lo -> hi <= (1 + q) * lo -> 0 <= q ->
  forall x, let x1 := fst (correct (fun _ => V) (fun _ => V') updHV ref x) in
  Rabs (V x1 - ref) <= Rmax (q * tol ref) (q ^ 50 * Rabs (V x - ref)).
Proof.
  intros V V' ref lo hi q HD HB Hlo Hhi Hq.
  assert (G : forall fuel k x,
    Rabs (V (fst (correctLoop (fun _ => V) (fun _ => V') updHV ref fuel k x)) - ref)
    <= Rmax (q * tol ref) (q ^ S fuel * Rabs (V x - ref))).
  { induction fuel as [| f IH]; intros k x.
    - cbn [correctLoop fst]. unfold updHV.
      apply Rle_trans with (2 := Rmax_r _ _). rewrite pow_1.
      apply (newton_step V V' ref lo hi q); assumption.
    - cbn [correctLoop]. cbv zeta. unfold Rltb.
      pose proof (newton_step V V' ref lo hi q HD HB Hlo Hhi Hq x) as N.
      destruct (Rlt_dec (tol ref) (Rabs (V x - ref))) as [L | L].
      + eapply Rle_trans; [apply IH |].
        apply Rle_max_compat_l. unfold updHV.
        change (q ^ S (S f)) with (q * q ^ S f). rewrite (Rmult_comm q (q ^ S f)), Rmult_assoc.
        apply Rmult_le_compat_l; [apply pow_le; exact Hq | exact N].
      + cbn [fst]. unfold updHV. apply Rle_trans with (2 := Rmax_l _ _).
        eapply Rle_trans; [exact N |]. apply Rmult_le_compat_l; lra. }
  intros x. exact (G 49%nat 0%nat x).
Qed.

(** With a constant heat capacity the match is exact. *)
Corollary C65_correction_exact : forall a b ref x, 0 < b ->
  let x1 := fst (correct (fun _ t => a + b * t) (fun _ _ => b) updHV ref x) in
  a + b * x1 = ref.
Proof.
  intros a b ref x Hb. cbv zeta.
  pose proof (C65_correction_accurate (fun t => a + b * t) (fun _ => b) ref b b 0) as G.
  assert (D : forall t, derivable_pt_lim (fun t => a + b * t) t b).
  { intros t eps He. exists (mkposreal 1 Rlt_0_1). intros h Hh _.
    replace ((a + b * (t + h) - (a + b * t)) / h - b) with 0 by (field; exact Hh).
    rewrite Rabs_R0. exact He. }
  specialize (G D ltac:(intros; lra) Hb ltac:(lra) ltac:(lra) x).
  cbv zeta in G. rewrite !Rmult_0_l, pow_ne_zero in G by lia. rewrite Rmult_0_l, Rmax_left in G by lra.
  match type of G with Rabs ?z <= 0 => assert (Z : z = 0) end.
  { destruct (Req_dec (a + b * fst (correct (fun _ t => a + b * t) (fun _ _ => b) updHV ref x) - ref) 0) as [E | E];
      [exact E |]. apply Rabs_pos_lt in E. lra. }
  lra.
Qed.

(** ** C67: the increments of the graphical driver *)

Section Increments.
Variable correctTH correctTS correctPV : nat -> St -> R.
Variable solve : nat -> St -> St.

(** Temperature and pressure prescribed: equal steps. *)
Theorem C67_prescribed : forall i s,
  incH i = 0 -> incS i = 0 -> incV i = 0 ->
  (forall n s, sT (solve n s) = sT s) -> (forall n s, sP (solve n s) = sP s) ->
  forall k, sT (visitedI correctTH correctTS correctPV solve i s k) = sT s + INR k * incT i
            /\ sP (visitedI correctTH correctTS correctPV solve i s k) = sP s + INR k * incP i.
Proof.
  intros i s HH HS HV KT KP. induction k as [| k [IH1 IH2]].
  - cbn [visitedI]. rewrite KT, KP. change (INR 0) with 0. split; ring.
  - cbn [visitedI]. rewrite KT, KP. unfold setIncrements. rewrite HH, HS, HV.
    rewrite Rabs_R0, (Rltb_false 0 0) by lra. cbv zeta.
    cbn [withT withP withH withS withV sT sP]. rewrite IH1, IH2, S_INR. split; ring.
Qed.

(** Enthalpy, entropy or volume imposed: the reference value moves in equal steps (the volume
    increment is entered in cubic centimetres, 10 to the J/bar). *)
Theorem C67_imposed : forall i s,
  (forall n s, refH (solve n s) = refH s) -> (forall n s, refS (solve n s) = refS s) ->
  (forall n s, refV (solve n s) = refV s) ->
  forall k, refH (visitedI correctTH correctTS correctPV solve i s k) = refH s + INR k * incH i
         /\ refS (visitedI correctTH correctTS correctPV solve i s k) = refS s + INR k * incS i
         /\ refV (visitedI correctTH correctTS correctPV solve i s k) = refV s + INR k * (incV i / 10).
Proof.
  intros i s KH KS KV. induction k as [| k (IH1 & IH2 & IH3)].
  - cbn [visitedI]. rewrite KH, KS, KV. change (INR 0) with 0. repeat split; ring.
  - cbn [visitedI]. rewrite KH, KS, KV. unfold setIncrements. cbv zeta.
    destruct (Rltb 0 (Rabs (incH i))), (Rltb 0 (Rabs (incS i))), (Rltb 0 (Rabs (incV i)));
      cbn [withT withP withH withS withV refH refS refV]; rewrite IH1, IH2, IH3, S_INR;
      repeat split; ring.
Qed.

(** With an enthalpy increment the temperature increment has no effect of its own: the
    temperature handed to the next equilibration is whatever the correction finds. *)
Theorem C67_correction_wins : forall i n s, incH i <> 0 -> incS i = 0 ->
  exists s', sT (setIncrements correctTH correctTS correctPV i n s) = correctTH n s'
             /\ refH s' = refH s + incH i.
Proof.
  intros i n s HH HS. unfold setIncrements. cbv zeta.
  rewrite (Rltb_true 0 (Rabs (incH i))) by (apply Rabs_pos_lt; exact HH).
  rewrite HS, Rabs_R0, (Rltb_false 0 0) by lra.
  set (s2 := withH (withP (withT s (sT s + incT i)) (sP s + incP i)) _).
  exists s2. split; [| reflexivity].
  destruct (Rltb 0 (Rabs (incV i))); reflexivity.
Qed.
End Increments.

(** ** C66 in machine arithmetic: one portion too many

    1 g in ten portions: ten times 0.1 add up to less than 1, so an eleventh portion is added and
    the system receives a tenth more than was asked for. *)
Definition f1 : spec_float := S754_finite false 4503599627370496 (-52).
Definition f10 : spec_float := S754_finite false 5629499534213120 (-49).

Theorem C66_refuted_eleventh_portion :
  fst (assimLoopF 100 f1 f10 (S754_zero false)) = 11%nat
  /\ SFltb (S754_finite false 4908923593833841 (-52))        (* 1.09 *)
           (snd (assimLoopF 100 f1 f10 (S754_zero false))) = true.
Proof. vm_compute. split; reflexivity. Qed.

(** A power of two of portions comes out right. *)
Theorem C66_four_portions :
  fst (assimLoopF 100 f1 (S754_finite false 4503599627370496 (-50)) (S754_zero false)) = 4%nat.
Proof. vm_compute. reflexivity. Qed.

(** ** Concrete cases *)

Definition exCfg : Cfg :=
  MkCfg 1000 15 0 0 0 0 1000 100 0 0 false false false true 6 3 0 0 0.
Definition exSt : St := MkSt 1200 500 1200 500 0 0 0 0 0.

(** 1200 down to 1000 in steps of 15: thirteen steps, to 1005; 500 up to 1000 bars in five steps
    of 100; three portions of assimilant.  The run makes thirteen steps. *)
Theorem C21_case : forall k,
  let v := visited (fun _ _ => 0) (fun _ _ => 0) (fun _ _ => 0) exCfg (fun _ s => s) exSt k in
  sT v = 1200 - INR (min k 13) * 15
  /\ sP v = 500 + INR (min k 5) * 100
  /\ assimMass v = INR (min k 3) / INR 3 * 6
  /\ goesOn (fun _ _ => 0) (fun _ _ => 0) (fun _ _ => 0) exCfg (fun _ s => s) exSt k = (k <? 13)%nat.
Proof.
  assert (K : keepsPath exCfg (fun _ s => s)) by (intros n s; repeat split; reflexivity).
  assert (FT : fits (Rabs (Tstart exSt - Tstop exCfg)) (Tinc exCfg) 13).
  { unfold fits. cbn [Tstart Tstop Tinc exSt exCfg]. rewrite Rabs_right by lra.
    rewrite !INR_IZR_INZ. cbn. lra. }
  assert (FP : fits (Rabs (Pstart exSt - Pstop exCfg)) (Pinc exCfg) 5).
  { unfold fits. cbn [Pstart Pstop Pinc exSt exCfg]. rewrite Rabs_left by lra.
    rewrite !INR_IZR_INZ. cbn. lra. }
  assert (IT : 0 < Tinc exCfg) by (cbn [Tinc exCfg]; lra).
  assert (IP : 0 < Pinc exCfg) by (cbn [Pinc exCfg]; lra).
  intros k. cbv zeta. repeat split.
  - rewrite (proj2 (visited_T _ _ _ _ _ K eq_refl eq_refl exSt k)).
    rewrite (proj1 (iter1_path _ _ _ _ IT FT k)). unfold pathAt.
    cbn [Tstart Tstop Tinc sT exSt exCfg]. destruct (Rlt_dec 1200 1000); lra.
  - rewrite (proj2 (visited_P _ _ _ _ _ K eq_refl exSt k)).
    rewrite (proj1 (iter1_path _ _ _ _ IP FP k)). unfold pathAt.
    cbn [Pstart Pstop Pinc sP exSt exCfg]. destruct (Rlt_dec 500 1000); lra.
  - apply (C66_portions _ _ _ exCfg _ K exSt 3); cbn; try reflexivity; try lia; try lra.
  - apply (C21_run_ends _ _ _ exCfg _ K exSt 13 5 3); try reflexivity; try assumption; try (cbn; lra).
    right. cbn. repeat split; try lia; lra.
Qed.

(** Imposed enthalpy: from -12000 to -12500 J in steps of -120: four steps, to -12480. *)
Definition exCfgH : Cfg :=
  MkCfg 1000 15 (-12500) (-120) 0 0 500 100 0 0 true false false false 0 1 0 0 0.
Definition exStH : St := MkSt 1200 500 1200 500 (-12000) 0 0 0 0.

Theorem C21_enthalpy_case : forall k,
  refH (visited (fun _ _ => 1100) (fun _ _ => 0) (fun _ _ => 0) exCfgH (fun _ s => withT s 1150) exStH k)
  = -12000 + INR (min k 4) * -120
  /\ goesOn (fun _ _ => 1100) (fun _ _ => 0) (fun _ _ => 0) exCfgH (fun _ s => withT s 1150) exStH k
     = (k <? 4)%nat.
Proof.
  assert (K : keepsPath exCfgH (fun _ s => withT s 1150)).
  { intros n s. repeat split; try reflexivity. cbn. discriminate. }
  intros k.
  apply (C21_enthalpies (fun _ _ => 1100) (fun _ _ => 0) (fun _ _ => 0) exCfgH _ K exStH 4 0);
    try reflexivity; cbn [Hinc Hstop refH Pinc Pstart Pstop exCfgH exStH]; try lra.
  - unfold fits. rewrite !Rabs_left by lra. rewrite !INR_IZR_INZ. cbn. lra.
  - unfold fits. rewrite Rminus_diag_eq, Rabs_R0 by reflexivity. cbn. lra.
Qed.
