(** Phases with ordering parameters along any path of compositions. *)
From Coq Require Import Reals QArith Qreals ZArith NArith Arith List Lia Lra Bool FunctionalExtensionality.
From Coquelicot Require Import Coquelicot.
From Verif Require Import RealTac Sym SymNorm SymPath SolnModel SolnSpec LaSpec LuModel LuProps OrdLimits OrdModel OrdCheck OrdSpec OrdProofs.
Import List ListNotations.
Local Open Scope R_scope.

Lemma slope_lim (f : R -> R) y0 d : is_derive f y0 d ->
  filterlim (fun y => if Req_EM_T y y0 then d else slope f y0 y) (locally y0) (locally d).
Proof.
  intros H. apply derive_slope in H. apply (lim_eps (locally y0)). intros eps He.
  destruct (proj1 (lim_eps (pl y0) _ _) H eps He) as [del Hd]. exists del. intros y Hy.
  destruct (Req_EM_T y y0) as [->|Ne]. { rewrite Rminus_eq_0, Rabs_R0. exact He. }
  exact (Hd y Hy Ne).
Qed.
Section Path.
Variable ph : ordPhase.
Hypothesis C0 : check0 ph = true.
Hypothesis C1 : check1 ph = true.
Hypothesis C2 : check2 ph = true.
Notation NS := (o_ns ph).
Notation NR := (o_nr ph).
Notation ss := (o_sites ph).
Notation nv := (nvars ph).
Variable sv : R -> R -> (nat -> R) -> nat -> R.
Variable slv : R -> R -> (nat -> R) -> vec -> vec.
Variable D : R -> R -> (nat -> R) -> Prop.
Hypothesis Or : ordered ph sv slv D.
Variables (t p : R) (rr : R -> nat -> R) (y0 : R) (c : nat -> R).
Hypothesis Dp : locally y0 (fun y => D t p (rr y)).
Hypothesis Sc : forall k, (k < NS)%nat -> filterlim (fun y => sv t p (rr y) k) (locally y0) (locally (sv t p (rr y0) k)).
Hypothesis Rd : forall j, (j < NR)%nat -> is_derive (fun y => rr y j) y0 (c j).
Let q0 := (t, p, rr y0).
Let D0 : D t p (rr y0) := locally_singleton _ _ Dp.
Notation at_ y := (t, p, rr y).

Definition pathv (ds : nat -> R) (v : var) : R := match v with vS k => ds k | vR j => c j | _ => 0 end.
Lemma path_cont v : valid ph v -> filterlim (fun y => pe sv (at_ y) (code v)) (locally y0) (locally (pe sv q0 (code v))).
Proof.
  intros V. rewrite (pe_code ph C0) by auto.
  apply (filterlim_ext (fun y => coordv sv v (at_ y))). { intros y. now rewrite (pe_code ph C0). }
  destruct v; cbn [coordv fst snd at3].
  - apply filterlim_const. - apply filterlim_const.
  - apply (ex_derive_continuous (K:=R_AbsRing) (V:=R_NormedModule) (fun y => rr y i)). eexists. exact (Rd i V).
  - exact (Sc k V).
Qed.
Lemma sum_path ds (f : var -> R) : sum nv (fun a => f (varAt ph a) * pathv ds (varAt ph a)) = sum NR (fun j => f (vR j) * c j) + sum NS (fun k => f (vS k) * ds k).
Proof. rewrite (sum_vars ph (fun v => f v * pathv ds v)). cbn [pathv]. ring. Qed.
Lemma path_slopes_sv i : (i < NS)%nat -> exists w : nat -> R -> R,
  locally y0 (fun y => sum NR (fun j => w (num ph (vR j)) y * (rr y j - rr y0 j)) + sum NS (fun k => w (num ph (vS k)) y * (sv t p (rr y) k - sv t p (rr y0) k)) = 0) /\
  (forall v, valid ph v -> filterlim (w (num ph v)) (locally y0) (locally (E ph sv q0 (d2 ph (vS i) v)))).
Proof.
  intros Hi. pose proof (basics ph C0) as (B1 & B2 & B3 & _).
  assert (Vi : valid ph (vS i)) by exact Hi.
  destruct (tab1 ph C1 (vS i) Vi) as (_ & Fx & _). apply fits_ok in Fx. destruct Fx as [F1 F2].
  destruct (path_slopes ss (codes ph) nv pos0 B1 B2 B3 (fun y => pe sv (at_ y)) y0) with (x := d1 ph (vS i)) (d := fun a => d2 ph (vS i) (varAt ph a)) as (w & W1 & W2); auto.
  { apply (q_inside ph sv slv D Or q0). exact D0. }
  { intros a Ha. apply path_cont. now apply at_valid. }
  { intros a Ha. apply tab2; auto. now apply at_valid. }
  exists w. split.
  - generalize (filter_and _ _ W1 Dp). apply filter_imp. intros y [S Dy].
    change (E ph sv (at_ y) (d1 ph (vS i)) - E ph sv q0 (d1 ph (vS i)) = sum nv (fun k => w k y * (pe sv (at_ y) (codes ph k) - pe sv q0 (codes ph k)))) in S.
    rewrite (stationary ph sv slv D Or (at_ y) i Dy Hi), (stationary ph sv slv D Or q0 i D0 Hi) in S. rewrite Rminus_eq_0 in S. rewrite S.
    rewrite (sumx nv _ (fun a => w (num ph (varAt ph a)) y * (coordv sv (varAt ph a) (at_ y) - coordv sv (varAt ph a) q0))).
    + rewrite (sum_vars ph (fun v => w (num ph v) y * (coordv sv v (at_ y) - coordv sv v q0))). unfold q0. cbn [coordv fst snd]. unfold at3. cbn [fst snd]. rewrite !Rminus_eq_0, !Rmult_0_r, !Rplus_0_l. reflexivity.
    + intros a Ha. pose proof (at_valid ph a Ha) as V. unfold codes. rewrite !(pe_code ph C0) by auto. rewrite (at_num ph a Ha). reflexivity.
  - intros v V. specialize (W2 (num ph v) (num_lt ph v V)). rewrite num_at in W2 by auto. exact W2.
Qed.
Theorem path_state k : (k < NS)%nat -> is_derive (fun y => sv t p (rr y) k) y0 (sum NR (fun j => c j * dsdr ph sv slv t p (rr y0) k j)).
Proof.
  intros Hk. destruct (regularH ph sv slv D Or q0 D0) as (B & Iv).
  destruct (fin_choice _ (fun _ _ => 0) NS (fun i Hi => path_slopes_sv i Hi)) as (w & W).
  set (sl := fun j y => if Req_EM_T y y0 then c j else slope (fun z => rr z j) y0 y).
  eapply is_derive_eq'.
  - apply (implicit_derive NS y0 _ B Iv (fun i k => w i (num ph (vS k))) (fun i y => sum NR (fun j => w i (num ph (vR j)) y * sl j y)) (fun k y => sv t p (rr y) k)
      (fun i => sum NR (fun j => E ph sv q0 (d2 ph (vS i) (vR j)) * c j))).
    + intros i j Hi Hj. apply W; auto.
    + intros i Hi. apply (lim_sum (locally y0) NR (fun j y => w i (num ph (vR j)) y * sl j y) (fun j => E ph sv q0 (d2 ph (vS i) (vR j)) * c j)).
      intros j Hj. apply lim_mult; [typeclasses eauto|apply W; auto|]. apply slope_lim. auto.
    + assert (L : forall m, (m <= NS)%nat -> locally y0 (fun y => forall i, (i < m)%nat ->
         sum NR (fun j => w i (num ph (vR j)) y * sl j y) * (y - y0) + sum NS (fun k => w i (num ph (vS k)) y * (sv t p (rr y) k - sv t p (rr y0) k)) = 0)).
      { induction m as [|m IH]; intros Hm. { apply filter_forall. intros; lia. }
        pose proof (IH ltac:(lia)) as I1. pose proof (proj1 (W m ltac:(lia))) as I2. generalize (filter_and _ _ I1 I2). apply filter_imp. intros y [A1 A2] i Hi.
        destruct (Nat.eq_dec i m); [subst i|apply A1; lia]. rewrite <- sum_mulr. etransitivity; [|exact A2]. f_equal.
        apply sumx. intros j Hj. rewrite Rmult_assoc. f_equal. unfold sl. destruct (Req_EM_T y y0) as [->|Ne]; [ring|]. now rewrite slope_mult. }
      exact (L NS (le_n _)).
    + exact Hk.
  - symmetry. apply (inverse_solve NS _ B (fun k => sum NR (fun j => c j * dsdr ph sv slv t p (rr y0) k j)) (fun i => - sum NR (fun j => E ph sv q0 (d2 ph (vS i) (vR j)) * c j)) Iv); auto. intros i Hi.
    rewrite (sumx NS _ (fun l => sum NR (fun j => E ph sv q0 (d2 ph (vS i) (vS l)) * dsdr ph sv slv t p (rr y0) l j * c j))).
    2:{ intros l Hl. rewrite <- sum_mul. apply sumx. intros. ring. }
    rewrite sum_swp, <- sum_neg. apply sumx. intros j Hj. rewrite sum_mulr.
    rewrite (sym2 ph C2 sv slv D Or q0 (vS i) (vR j) D0 Hi Hj).
    change (dsdr ph sv slv t p (rr y0)) with (fun l j => s1 ph sv slv (vR j) q0 l). cbv beta.
    rewrite (E1 ph C0 sv slv D Or (vR j) q0 i D0 Hi). ring.
Qed.
(** a formula known with its partial derivatives, along the path *)
Theorem path_formula x (d : var -> expr) : fits ph x = true -> (forall v, valid ph v -> derives ss pos0 (code v) x (d v)) ->
  is_derive (fun y => ev ph sv t p (rr y) x) y0
    (sum NR (fun j => c j * (ev ph sv t p (rr y0) (d (vR j)) + sum NS (fun k => ev ph sv t p (rr y0) (d (vS k)) * dsdr ph sv slv t p (rr y0) k j)))).
Proof.
  intros Fx Dx. pose proof (basics ph C0) as (B1 & B2 & B3 & _). apply fits_ok in Fx. destruct Fx as [F1 F2].
  set (ds := fun k => sum NR (fun j => c j * dsdr ph sv slv t p (rr y0) k j)).
  eapply is_derive_eq'.
  - apply (path_derive ss (codes ph) nv pos0 B1 B2 B3 (fun y => pe sv (at_ y)) y0) with (d := fun a => d (varAt ph a)) (dv := fun a => pathv ds (varAt ph a)); auto.
    + apply (q_inside ph sv slv D Or q0). exact D0.
    + intros a Ha. apply path_cont. now apply at_valid.
    + intros a Ha. apply Dx. now apply at_valid.
    + intros a Ha. pose proof (at_valid ph a Ha) as V. unfold codes. set (v := varAt ph a) in *. clearbody v.
      apply (is_derive_ext (fun y => coordv sv v (at_ y))). { intros y. now rewrite (pe_code ph C0). }
      destruct v; cbn [coordv pathv fst snd at3]; try (exact (is_derive_const (K:=R_AbsRing) _ _)); [now apply Rd|]. unfold ds. now apply path_state.
  - cbv beta. rewrite (sum_path ds (fun v => denote ss (pe sv (t, p, rr y0)) (d v))).
    match goal with |- ?a = ?b => change (@eq R a b) end.
    change (denote ss (pe sv (t, p, rr y0))) with (ev ph sv t p (rr y0)).
    rewrite (sumx NS _ (fun k => sum NR (fun j => ev ph sv t p (rr y0) (d (vS k)) * (c j * dsdr ph sv slv t p (rr y0) k j)))).
    2:{ intros k Hk. unfold ds. now rewrite sum_mul. }
    rewrite sum_swp, <- sum_add. apply sumx. intros j Hj. rewrite Rmult_plus_distr_l, <- sum_mul. f_equal; [ring|]. apply sumx. intros. ring.
Qed.
(** the energy and its composition derivatives along the path *)
Theorem path_g : is_derive (fun y => og ph sv t p (rr y)) y0 (sum NR (fun j => c j * og_dx ph sv t p (rr y0) j)).
Proof.
  assert (Vt : valid ph vT) by exact I.
  eapply is_derive_eq'; [apply (path_formula (o_g ph) (d1 ph))|].
  - apply (tab1 ph C1 vT Vt).
  - intros v V. apply (tab1 ph C1 v V).
  - match goal with |- ?a = ?b => change (@eq R a b) end. apply sumx. intros j Hj. rewrite sum_zer; [rewrite Rplus_0_r; reflexivity|].
    intros k Hk. change (d1 ph (vS k)) with (nth1 (o_s1 ph) k). rewrite (ord_stationary _ _ _ _ Or t p (rr y0) k D0 Hk). ring.
Qed.
Theorem path_gx i : (i < NR)%nat -> ex_derive (fun y => og_dx ph sv t p (rr y) i) y0.
Proof.
  intros Hi. eexists. apply (path_formula (d1 ph (vR i)) (d2 ph (vR i))).
  - apply (tab1 ph C1 (vR i)). exact Hi.
  - intros v V. apply (tab2 ph C2 (vR i) v Hi V).
Qed.
End Path.
