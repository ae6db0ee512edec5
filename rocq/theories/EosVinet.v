(** Proofs for the Vinet branch of EosModel. *)
From Coq Require Import Reals Lra Lia.
From Verif Require Import RealTac Implicit EosSpec EosModel EosProofs.
Local Open Scope R_scope.

(** A branch of solutions of the compression equation around (t,p): near (t,p) the value [X u v] is an
    exact positive root of the residual at (u,v), nondegenerate, and X is continuous in each variable. *)
Definition vinet_nondeg (c : eosVinet) (x : R) : Prop := 2 - x + vinet_eta c * x - vinet_eta c * x * x <> 0.
Definition vinet_branch (c : eosVinet) (X : R -> R -> R) (t p : R) : Prop :=
  exists eps : posreal, forall u v, Rabs (u - t) < eps -> Rabs (v - p) < eps ->
    vinet_fn c u v (X u v) = 0 /\ 0 < X u v /\ vinet_nondeg c (X u v)
    /\ continuous (fun u => X u v) u /\ continuous (fun v => X u v) v.

(** phi(x) = 3K(1-x)exp(eta(1-x))/x^2, so that fn = 0 iff phi x = p/1e4 - alpha K (t-tr) *)
Definition vphi (c : eosVinet) (x : R) : R := 3 * vK c * (1 - x) * exp (vinet_eta c * (1 - x)) / (x * x).
Definition vdphi (c : eosVinet) (x : R) : R :=
  - (3 * vK c * exp (vinet_eta c * (1 - x)) * (2 - x + vinet_eta c * x - vinet_eta c * x * x) / (x*x*x)).
Definition vlin (c : eosVinet) (t p : R) : R := p / 10000 - valpha c * vK c * (t - tr).

Lemma vphi_derive c x : x <> 0 -> is_derive (vphi c) x (vdphi c x).
Proof.
  intro H. unfold vphi, vdphi. generalize (vinet_eta c) (vK c). intros eta K.
  auto_derive.
  - intro E. apply H. apply Rmult_integral in E. tauto.
  - change (1 + - x) with (1 - x). field. exact H.
Qed.
Lemma fn_phi c t p x : x <> 0 -> vinet_fn c t p x = 0 <-> vphi c x = vlin c t p.
Proof.
  intro H. unfold vinet_fn, vphi, vlin. replace (1.0 - x) with (1 - x) by (dec; field).
  generalize (exp (vinet_eta c * (1 - x))) (valpha c) (vK c) tr. intros e a K tr'. dec. split; intro E.
  - apply Rmult_eq_reg_r with (x * x); [|intro Z; apply Rmult_integral in Z; tauto].
    replace (3 * K * (1 - x) * e / (x * x) * (x * x)) with (3 * K * (1 - x) * e) by (field; exact H).
    lra.
  - assert (E2 : 3 * K * (1 - x) * e = (p / 10000 - a * K * (t - tr')) * (x * x)) by (rewrite <- E; field; exact H).
    lra.
Qed.

Section Branch.
Context (c : eosVinet) (HK : vK c <> 0).
Lemma vdphi_ne x : x <> 0 -> vinet_nondeg c x -> vdphi c x <> 0.
Proof.
  intros Hx Hn E. unfold vdphi in E. apply Hn.
  pose proof (exp_pos (vinet_eta c * (1 - x))) as He.
  apply (Rmult_eq_reg_l (- (3 * vK c * exp (vinet_eta c * (1 - x)) / (x*x*x)))).
  - rewrite Rmult_0_r, <- E. field. exact Hx.
  - intro Z. apply Ropp_eq_0_compat in Z. rewrite Ropp_involutive in Z. unfold Rdiv in Z.
    repeat (apply Rmult_integral in Z; destruct Z as [Z|Z]); try lra; try contradiction.
    apply (Rinv_neq_0_compat (x*x*x)); [|exact Z]. repeat apply Rmult_integral_contrapositive_currified; exact Hx.
Qed.
Lemma dxdt_eq x : x <> 0 -> vinet_nondeg c x -> - (valpha c * vK c) / vdphi c x = vinet_dxdt c x.
Proof.
  intros Hx Hn. unfold vdphi, vinet_dxdt, vinet_nondeg in *. dec.
  replace (10 * / 10 - x) with (1 - x) by field.
  pose proof (exp_pos (vinet_eta c * (1 - x))) as He. revert He. generalize (exp (vinet_eta c * (1 - x))).
  intros e He. field. csplit; try lra; try assumption; intro Z; apply Hn; lra.
Qed.
Lemma dxdp_eq x : x <> 0 -> vinet_nondeg c x -> / 10000 / vdphi c x = vinet_dxdp c x / 10000.
Proof.
  intros Hx Hn. unfold vdphi, vinet_dxdp, vinet_nondeg in *. dec.
  replace (10 * / 10 - x) with (1 - x) by field.
  pose proof (exp_pos (vinet_eta c * (1 - x))) as He. revert He. generalize (exp (vinet_eta c * (1 - x))).
  intros e He. field. csplit; try lra; try assumption; intro Z; apply Hn; lra.
Qed.

Lemma branch_dt X t p : vinet_branch c X t p -> is_derive (fun u => X u p) t (vinet_dxdt c (X t p)).
Proof.
  intros [eps B]. destruct (B t p) as (E & P & N & C1 & _); try (rewrite Rminus_eq_0, Rabs_R0; apply cond_pos).
  rewrite <- dxdt_eq by (try assumption; lra).
  apply (implicit_derive (vphi c) (fun u => vlin c u p) (fun u => X u p) t).
  - exact C1.
  - apply vphi_derive; lra.
  - apply vdphi_ne; [lra|exact N].
  - unfold vlin. auto_derive; [trivial|]. ring.
  - exists eps. intros u Hu. change (Rabs (u - t) < eps) in Hu.
    destruct (B u p) as (E' & P' & _); [exact Hu|rewrite Rminus_eq_0, Rabs_R0; apply cond_pos|].
    apply fn_phi; [lra|exact E'].
Qed.
Lemma branch_dp X t p : vinet_branch c X t p -> is_derive (fun v => X t v) p (vinet_dxdp c (X t p) / 10000).
Proof.
  intros [eps B]. destruct (B t p) as (E & P & N & _ & C2); try (rewrite Rminus_eq_0, Rabs_R0; apply cond_pos).
  rewrite <- dxdp_eq by (try assumption; lra).
  apply (implicit_derive (vphi c) (fun v => vlin c t v) (fun v => X t v) p).
  - exact C2.
  - apply vphi_derive; lra.
  - apply vdphi_ne; [lra|exact N].
  - unfold vlin. auto_derive; [trivial|]. field.
  - exists eps. intros v Hv. change (Rabs (v - p) < eps) in Hv.
    destruct (B t v) as (E' & P' & _); [rewrite Rminus_eq_0, Rabs_R0; apply cond_pos|exact Hv|].
    apply fn_phi; [lra|exact E'].
Qed.
Lemma branch_at X t p : vinet_branch c X t p -> vinet_fn c t p (X t p) = 0 /\ 0 < X t p /\ vinet_nondeg c (X t p).
Proof. intros [eps B]. destruct (B t p) as (E & P & N & _); try (rewrite Rminus_eq_0, Rabs_R0; apply cond_pos). auto. Qed.
End Branch.

(** reduction to an algebraic identity: the pressure expressed by the root *)
Lemma root_pressure c t p x : x <> 0 -> vinet_fn c t p x = 0 ->
  p = 10000 * (3 * vK c * (1 - x) * exp (vinet_eta c * (1 - x)) / (x * x) + valpha c * vK c * (t - tr)).
Proof.
  intros Hx H. apply (fn_phi c t p x Hx) in H. unfold vphi, vlin in H. rewrite H. field.
Qed.

(** algebra of the second derivatives: total derivatives of the first-derivative formulas *)
Definition ddx_dxdt (c : eosVinet) (x : R) : R := (* d/dx of vinet_dxdt *)
  let eta := vinet_eta c in let q := 2 - x + eta*x - eta*x*x in
  valpha c / 3 * ((3*x*x + eta*x*x*x) / (exp (eta*(1-x)) * q) - x*x*x*(-1 + eta - 2*eta*x) / (exp (eta*(1-x)) * q * q)).
Definition ddx_dxdp (c : eosVinet) (x : R) : R :=
  let eta := vinet_eta c in let q := 2 - x + eta*x - eta*x*x in
  - / (3 * vK c) * ((3*x*x + eta*x*x*x) / (exp (eta*(1-x)) * q) - x*x*x*(-1 + eta - 2*eta*x) / (exp (eta*(1-x)) * q * q)).
Lemma dxdt_ddx c x : vK c <> 0 -> vinet_nondeg c x -> is_derive (vinet_dxdt c) x (ddx_dxdt c x).
Proof.
  intros HK Hn. unfold vinet_dxdt, ddx_dxdt, vinet_nondeg in *. generalize dependent (vinet_eta c). intros eta Hn.
  dec. pose proof (exp_pos (eta * (1 - x))) as He.
  auto_derive.
  - replace (10 * / 10 + - x) with (1 - x) by field.
    repeat apply Rmult_integral_contrapositive_currified; try assumption; try lra.
  - replace (10 * / 10 + - x) with (1 - x) by field. revert He. generalize (exp (eta * (1 - x))). intros e He.
    field. csplit; try lra; try assumption; intro Z; apply Hn; lra.
Qed.
Lemma dxdp_ddx c x : vK c <> 0 -> vinet_nondeg c x -> is_derive (vinet_dxdp c) x (ddx_dxdp c x).
Proof.
  intros HK Hn. unfold vinet_dxdp, ddx_dxdp, vinet_nondeg in *. generalize dependent (vinet_eta c). intros eta Hn.
  dec. pose proof (exp_pos (eta * (1 - x))) as He.
  auto_derive.
  - replace (10 * / 10 + - x) with (1 - x) by field.
    repeat apply Rmult_integral_contrapositive_currified; try assumption; try lra.
  - replace (10 * / 10 + - x) with (1 - x) by field. revert He. generalize (exp (eta * (1 - x))). intros e He.
    field. csplit; try lra; try assumption; intro Z; apply Hn; lra.
Qed.
(** the printed second-derivative formulas are the chain-rule values at a root *)
Lemma d2xdt2_ok c t p x : vK c <> 0 -> x <> 0 -> vinet_nondeg c x -> vinet_fn c t p x = 0 ->
  vinet_d2xdt2 c t p x = vinet_dxdt c x * ddx_dxdt c x.
Proof.
  intros HK Hx Hn HF. pose proof (root_pressure c t p x Hx HF) as HP. clear HF.
  unfold vinet_d2xdt2, vinet_dxdt, ddx_dxdt, vinet_nondeg in *.
  subst p. generalize dependent (vinet_eta c). intros eta Hn.
  dec. replace (10 * / 10 - x) with (1 - x) by field. pose proof (exp_pos (eta * (1 - x))) as He.
  revert He. generalize (exp (eta * (1 - x))). intros e He. generalize tr. intro tr'.
  field. csplit; try lra; try assumption; try (intro Z; apply Hn; lra).
  replace (_ - _) with (3000000 * vK c * e * (2 - x + eta * x - eta * x * x)) by ring.
  repeat apply Rmult_integral_contrapositive_currified; try assumption; lra.
Qed.
Lemma d2xdtdp_ok c t p x : vK c <> 0 -> x <> 0 -> vinet_nondeg c x -> vinet_fn c t p x = 0 ->
  vinet_d2xdtdp c t p x = vinet_dxdp c x * ddx_dxdt c x.
Proof.
  intros HK Hx Hn HF. pose proof (root_pressure c t p x Hx HF) as HP. clear HF.
  unfold vinet_d2xdtdp, vinet_dxdp, vinet_dxdt, ddx_dxdt, vinet_nondeg in *.
  subst p. generalize dependent (vinet_eta c). intros eta Hn.
  dec. replace (10 * / 10 - x) with (1 - x) by field. pose proof (exp_pos (eta * (1 - x))) as He.
  revert He. generalize (exp (eta * (1 - x))). intros e He. generalize tr. intro tr'.
  field. csplit; try lra; try assumption; try (intro Z; apply Hn; lra).
  replace (_ - _) with (3000000 * vK c * e * (2 - x + eta * x - eta * x * x)) by ring.
  repeat apply Rmult_integral_contrapositive_currified; try assumption; lra.
Qed.
Lemma ddx_cross c x : vK c <> 0 -> vinet_nondeg c x -> vinet_dxdt c x * ddx_dxdp c x = vinet_dxdp c x * ddx_dxdt c x.
Proof.
  intros HK Hn. unfold vinet_dxdp, vinet_dxdt, ddx_dxdt, ddx_dxdp, vinet_nondeg in *.
  generalize dependent (vinet_eta c). intros eta Hn.
  dec. replace (10 * / 10 - x) with (1 - x) by field. pose proof (exp_pos (eta * (1 - x))) as He.
  revert He. generalize (exp (eta * (1 - x))). intros e He.
  field. csplit; try lra; try assumption; try (intro Z; apply Hn; lra).
Qed.
Lemma d2xdp2_ok c x : vK c <> 0 -> x <> 0 -> vinet_nondeg c x ->
  vinet_d2xdp2 c x = vinet_dxdp c x * ddx_dxdp c x.
Proof.
  intros HK Hx Hn.
  unfold vinet_d2xdp2, vinet_dxdp, ddx_dxdp, vinet_nondeg in *.
  generalize dependent (vinet_eta c). intros eta Hn.
  dec. replace (10 * / 10 - x) with (1 - x) by field. pose proof (exp_pos (eta * (1 - x))) as He.
  revert He. generalize (exp (eta * (1 - x))). intros e He.
  field. csplit; try lra; try assumption; try (intro Z; apply Hn; lra).
Qed.

(** a branch for x0 is a branch at p = pr that does not depend on p *)
Definition vinet_branch0 (c : eosVinet) (X0 : R -> R) (t : R) : Prop :=
  exists eps : posreal, forall u, Rabs (u - t) < eps ->
    vinet_fn c u pr (X0 u) = 0 /\ 0 < X0 u /\ vinet_nondeg c (X0 u) /\ continuous X0 u.
Lemma branch0_dt c X0 t : vK c <> 0 -> vinet_branch0 c X0 t -> is_derive X0 t (vinet_dxdt c (X0 t)).
Proof.
  intros HK [eps B]. destruct (B t) as (E & P & N & C1); try (rewrite Rminus_eq_0, Rabs_R0; apply cond_pos).
  rewrite <- dxdt_eq by (try assumption; lra).
  apply (implicit_derive (vphi c) (fun u => vlin c u pr) X0 t).
  - exact C1.
  - apply vphi_derive; lra.
  - apply vdphi_ne; [exact HK|lra|exact N].
  - unfold vlin. auto_derive; [trivial|]. ring.
  - exists eps. intros u Hu. change (Rabs (u - t) < eps) in Hu.
    destruct (B u Hu) as (E' & P' & _). apply fn_phi; [lra|exact E'].
Qed.
Lemma branch0_at c X0 t : vinet_branch0 c X0 t -> vinet_fn c t pr (X0 t) = 0 /\ 0 < X0 t /\ vinet_nondeg c (X0 t).
Proof. intros [eps B]. destruct (B t) as (E & P & N & _); try (rewrite Rminus_eq_0, Rabs_R0; apply cond_pos). auto. Qed.

Ltac ader := repeat match goal with H : is_derive ?f ?x ?l |- context [Derive ?g ?x] =>
   replace (Derive g x) with l by (symmetry; apply is_derive_unique; exact H) end.

Lemma cub_derive k (Y : R -> R) x y : is_derive Y x y -> is_derive (fun u => k * Y u * Y u * Y u) x (3 * k * Y x * Y x * y).
Proof. intro H. auto_derive; [csplit; try exact I; eexists; exact H|]. ader. ring. Qed.
Lemma sqp_derive k (Y Y1 : R -> R) x y y1 : is_derive Y x y -> is_derive Y1 x y1 ->
  is_derive (fun u => k * Y u * Y u * Y1 u) x (k * (2 * Y x * y * Y1 x + Y x * Y x * y1)).
Proof. intros H H1. auto_derive; [csplit; try exact I; solve [eexists; exact H|eexists; exact H1]|]. ader. ring. Qed.
Lemma div_derive k (Y : R -> R) x y : is_derive Y x y -> is_derive (fun u => Y u / k) x (y / k).
Proof. intro H. auto_derive; [csplit; try exact I; eexists; exact H|]. ader. unfold Rdiv. ring. Qed.

Section Consist.
Context (c : eosVinet) (HK : vK c <> 0) (He : vinet_eta c <> 0).

(** G along t, with x and x0 moving *)
Lemma vg_dt (Y Z : R -> R) (t p y z : R) :
  is_derive Y t y -> is_derive Z t z -> vinet_fn c t p (Y t) = 0 -> vinet_fn c t pr (Z t) = 0 ->
  is_derive (fun u => tG (vinet_eos c (Y u) (Z u) u p)) t (- tS (vinet_eos c (Y t) (Z t) t p)).
Proof.
  intros HY HZ FY FZ. unfold vinet_eos; cbn [tG tS]. unfold vinet_fn in FY, FZ.
  pose proof He as He'. set (eta := vinet_eta c) in *.
  set (tr' := tr) in *. set (p1 := pr) in *. clearbody tr' p1. dec.
  auto_derive.
  - csplit; try exact I; solve [exists y; exact HY | exists z; exact HZ | trivial].
  - ader. change (10 * / 10 + - Y t) with (10 * / 10 - Y t). change (10 * / 10 + - Z t) with (10 * / 10 - Z t).
    revert FY FZ. generalize (exp (eta * (10 * / 10 - Y t))); intro e1. generalize (exp (eta * (10 * / 10 - Z t))); intro e2.
    generalize (Y t); intro a. generalize (Z t); intros b FY FZ.
    match goal with |- ?L = ?R => cut (L - R - 3 * vv0 c * 10000 * (y * (a * a * (p / (100000 * / 10)) - 30 * / 10 * vK c * (10 * / 10 - a) * e1 - a * a * valpha c * vK c * (t - tr')) - z * (b * b * (p1 / (100000 * / 10)) - 30 * / 10 * vK c * (10 * / 10 - b) * e2 - b * b * valpha c * vK c * (t - tr'))) = 0) end.
    + rewrite FY, FZ. lra.
    + clear FY FZ. field. exact He'.
Qed.
(** G along p *)
Lemma vg_dp (Y : R -> R) (x0 t p y : R) :
  is_derive Y p y -> vinet_fn c t p (Y p) = 0 ->
  is_derive (fun v => tG (vinet_eos c (Y v) x0 t v)) p (tV (vinet_eos c (Y p) x0 t p)).
Proof.
  intros HY FY. unfold vinet_eos; cbn [tG tV]. unfold vinet_fn in FY.
  pose proof He as He'. set (eta := vinet_eta c) in *.
  set (tr' := tr) in *. set (p1 := pr) in *. clearbody tr' p1. dec.
  auto_derive.
  - csplit; try exact I; solve [exists y; exact HY | trivial].
  - ader. change (10 * / 10 + - Y p) with (10 * / 10 - Y p).
    revert FY. generalize (exp (eta * (10 * / 10 - Y p))); intro e1. generalize (exp (eta * (10 * / 10 - x0))); intro e2.
    generalize (Y p); intros a FY.
    match goal with |- ?L = ?R => cut (L - R - 3 * vv0 c * 10000 * (y * (a * a * (p / (100000 * / 10)) - 30 * / 10 * vK c * (10 * / 10 - a) * e1 - a * a * valpha c * vK c * (t - tr'))) = 0) end.
    + rewrite FY. lra.
    + clear FY. field. exact He'.
Qed.

Context (X : R -> R -> R) (X0 : R -> R) (t p : R) (Ht : 0 < t).
Context (B : vinet_branch c X t p) (B0 : vinet_branch0 c X0 t).

Theorem vinet_eos_consistent : thermo_consistent (fun t p => vinet_eos c (X t p) (X0 t) t p) t p.
Proof.
  pose proof (branch_dt c HK X t p B) as DT. pose proof (branch_dp c HK X t p B) as DP.
  pose proof (branch0_dt c X0 t HK B0) as DZ.
  destruct (branch_at c X t p B) as (FX & PX & NX). destruct (branch0_at c X0 t B0) as (F0 & P0 & N0).
  assert (DDT : is_derive (fun u => vinet_dxdt c (X u p)) t (vinet_d2xdt2 c t p (X t p))).
  { rewrite d2xdt2_ok by (try assumption; lra).
    apply (is_derive_comp (vinet_dxdt c) (fun u => X u p)); [apply dxdt_ddx; assumption|exact DT]. }
  assert (DD0 : is_derive (fun u => vinet_dxdt c (X0 u)) t (vinet_d2xdt2 c t pr (X0 t))).
  { rewrite d2xdt2_ok by (try assumption; lra).
    apply (is_derive_comp (vinet_dxdt c) X0); [apply dxdt_ddx; assumption|exact DZ]. }
  assert (DTP : is_derive (fun v => vinet_dxdt c (X t v)) p (vinet_d2xdtdp c t p (X t p) / 10000)).
  { rewrite d2xdtdp_ok by (try assumption; lra).
    eapply is_derive_eq; [apply (is_derive_comp (vinet_dxdt c) (fun v => X t v)); [apply dxdt_ddx; assumption|exact DP]|].
    change (vinet_dxdp c (X t p) / 10000 * ddx_dxdt c (X t p) = vinet_dxdp c (X t p) * ddx_dxdt c (X t p) / 10000). field. }
  assert (DPT : is_derive (fun u => vinet_dxdp c (X u p)) t (vinet_d2xdtdp c t p (X t p))).
  { rewrite d2xdtdp_ok by (try assumption; lra). rewrite <- ddx_cross by assumption.
    apply (is_derive_comp (vinet_dxdp c) (fun u => X u p)); [apply dxdp_ddx; assumption|exact DT]. }
  assert (DPP : is_derive (fun v => vinet_dxdp c (X t v)) p (vinet_d2xdp2 c (X t p) / 10000)).
  { rewrite d2xdp2_ok by (try assumption; lra).
    eapply is_derive_eq; [apply (is_derive_comp (vinet_dxdp c) (fun v => X t v)); [apply dxdp_ddx; assumption|exact DP]|].
    change (vinet_dxdp c (X t p) / 10000 * ddx_dxdp c (X t p) = vinet_dxdp c (X t p) * ddx_dxdp c (X t p) / 10000). field. }
  assert (GT : is_derive (fun u => tG (vinet_eos c (X u p) (X0 u) u p)) t (- tS (vinet_eos c (X t p) (X0 t) t p))).
  { exact (vg_dt (fun u => X u p) X0 t p _ _ DT DZ FX F0). }
  assert (ST : is_derive (fun u => tS (vinet_eos c (X u p) (X0 u) u p)) t (tCp (vinet_eos c (X t p) (X0 t) t p) / t)).
  { unfold vinet_eos; cbn [tS tCp].
    set (Y := fun u => X u p) in *. change (X t p) with (Y t) in *.
    apply is_derive_ext with (fun u => 10000.0*valpha c*vK c*vv0 c*(Y u*Y u*Y u-X0 u*X0 u*X0 u)); [reflexivity|].
    dec. auto_derive; [csplit; try exact I; solve [eexists; exact DT|eexists; exact DZ]|].
    ader. field. lra. }
  split; [|split].
  - unfold energies_consistent. csplit.
    + exact GT.
    + unfold vinet_eos; cbn [tG tH tS]. ring.
    + exact ST.
    + apply is_derive_ext with (fun u => tG (vinet_eos c (X u p) (X0 u) u p) + u * tS (vinet_eos c (X u p) (X0 u) u p)).
      { intro u. unfold vinet_eos; cbn [tG tH tS]. match goal with |- ?a = ?b => change (@eq R a b) end. ring. }
      eapply is_derive_eq.
      { apply is_derive_add; [exact GT|]. apply (is_derive_mult (fun u : R => u) (fun u => tS (vinet_eos c (X u p) (X0 u) u p)) t 1).
        - apply (@is_derive_id R_AbsRing).
        - exact ST.
        - intros; apply Rmult_comm. }
      change (- tS (vinet_eos c (X t p) (X0 t) t p) + (1 * tS (vinet_eos c (X t p) (X0 t) t p) + t * (tCp (vinet_eos c (X t p) (X0 t) t p) / t)) = tCp (vinet_eos c (X t p) (X0 t) t p)).
      field. lra.
    + unfold vinet_eos; cbn [tCp tdCp].
      set (Y := fun u => X u p) in *. change (X t p) with (Y t) in *.
      set (Y1 := fun u => vinet_dxdt c (Y u)). set (Z1 := fun u => vinet_dxdt c (X0 u)).
      change (is_derive Y1 t (vinet_d2xdt2 c t p (Y t))) in DDT. change (is_derive Z1 t (vinet_d2xdt2 c t pr (X0 t))) in DD0.
      apply is_derive_ext with (fun u => 10000.0*u*valpha c*vK c*vv0 c*3.0*(Y u*Y u*Y1 u - X0 u*X0 u*Z1 u)); [reflexivity|].
      change (vinet_dxdt c (Y t)) with (Y1 t) in *. change (vinet_dxdt c (X0 t)) with (Z1 t) in *.
      dec. clearbody Y1 Z1. auto_derive; [csplit; try exact I; solve [eexists; exact DT|eexists; exact DZ|eexists; exact DDT|eexists; exact DD0]|].
      ader. field.
  - unfold volumes_consistent, vinet_eos; cbn [tV tVt tVp tVtt tVtp tVpp]. csplit.
    + eapply is_derive_eq; [exact (cub_derive (vv0 c) _ _ _ DT)|dec; field].
    + eapply is_derive_eq; [exact (cub_derive (vv0 c) _ _ _ DP)|dec; field].
    + eapply is_derive_eq; [exact (sqp_derive (3.0 * vv0 c) _ _ _ _ _ DT DDT)|dec; field].
    + eapply is_derive_eq; [exact (sqp_derive (3.0 * vv0 c) _ _ _ _ _ DP DTP)|dec; field].
    + eapply is_derive_eq; [exact (div_derive 10000.0 _ _ _ (sqp_derive (3.0 * vv0 c) _ _ _ _ _ DT DPT))|dec; field].
    + eapply is_derive_eq; [exact (div_derive 10000.0 _ _ _ (sqp_derive (3.0 * vv0 c) _ _ _ _ _ DP DPP))|dec; field].
  - unfold volume_is_dGdP. exact (vg_dp (fun v => X t v) (X0 t) t p _ DP FX).
Qed.
End Consist.

(** ** Branches exist through every nondegenerate root *)
Lemma q_continuous c x : continuous (fun x => 2 - x + vinet_eta c * x - vinet_eta c * x * x) x.
Proof. apply (ex_derive_continuous (fun x : R => 2 - x + vinet_eta c * x - vinet_eta c * x * x)). auto_derive. trivial. Qed.

Lemma psi_exists c xs : vK c <> 0 -> 0 < xs -> vinet_nondeg c xs ->
  exists psi, psi (vphi c xs) = xs /\
    locally (vphi c xs) (fun s => vphi c (psi s) = s /\ continuous psi s /\ 0 < psi s /\ vinet_nondeg c (psi s)).
Proof.
  intros HK Hx Hn.
  set (q := fun x => 2 - x + vinet_eta c * x - vinet_eta c * x * x).
  assert (Q : exists d, 0 < d /\ d < xs /\ forall z, xs - d <= z <= xs + d -> 0 < q z * q xs).
  { assert (HQ : 0 < q xs * q xs). { destruct (Rlt_le_dec 0 (q xs * q xs)) as [H|H]; [exact H|exfalso].
      pose proof (Rle_0_sqr (q xs)) as S. unfold Rsqr in S. assert (E : q xs * q xs = 0) by lra.
      apply Rmult_integral in E. unfold vinet_nondeg in Hn. fold (q xs) in Hn. tauto. }
    assert (C : continuous (fun z => q z * q xs) xs).
    { apply (ex_derive_continuous (fun z : R => q z * q xs)). unfold q. auto_derive. trivial. }
    assert (P : locally (q xs * q xs) (fun y => 0 < y)).
    { exists (mkposreal _ HQ). intros y Hy. change (Rabs (y - q xs * q xs) < q xs * q xs) in Hy. apply Rabs_def2 in Hy. lra. }
    destruct (C _ P) as [d Hd].
    pose proof (cond_pos d) as Hp.
    exists (Rmin (d / 2) (xs / 2)). pose proof (Rmin_l (d/2) (xs/2)). pose proof (Rmin_r (d/2) (xs/2)).
    assert (0 < Rmin (d/2) (xs/2)) by (apply Rmin_glb_lt; lra).
    repeat split; try lra. intros z Hz. apply Hd. change (Rabs (z - xs) < d). apply Rabs_def1; lra. }
  destruct Q as [d [Hd [Hdx Q]]].
  assert (SG : forall z, xs - d <= z <= xs + d -> vdphi c z = - (3 * vK c * q xs) * ((exp (vinet_eta c * (1 - z)) * / (z*z*z)) * (q z * q xs) * / (q xs * q xs))).
  { intros z Hz. unfold vdphi. fold (q z). field. split; [|lra]. unfold vinet_nondeg in Hn. fold (q xs) in Hn. exact Hn. }
  assert (PS : forall z, xs - d <= z <= xs + d -> 0 < (exp (vinet_eta c * (1 - z)) * / (z*z*z)) * (q z * q xs) * / (q xs * q xs)).
  { intros z Hz. assert (Hzp : 0 < z) by lra. pose proof (Q z Hz). pose proof (Q xs ltac:(lra)).
    apply Rmult_lt_0_compat; [apply Rmult_lt_0_compat; [apply Rmult_lt_0_compat; [apply exp_pos|]|]|]; try lra;
    apply Rinv_0_lt_compat; try lra. repeat apply Rmult_lt_0_compat; lra. }
  assert (NZ : 3 * vK c * q xs <> 0).
  { repeat apply Rmult_integral_contrapositive_currified; try lra; try assumption. }
  assert (R0 : exists psi, psi (vphi c xs) = xs /\
    locally (vphi c xs) (fun s => vphi c (psi s) = s /\ continuous psi s /\ xs - d <= psi s <= xs + d)).
  { destruct (Rlt_le_dec (3 * vK c * q xs) 0) as [L|L].
    - apply (local_inverse_pos (vphi c) (vdphi c) xs d Hd).
      + intros z Hz. apply vphi_derive. lra.
      + intros z Hz. rewrite SG by exact Hz. apply Rmult_lt_0_compat; [lra|apply PS; exact Hz].
    - apply (local_inverse_neg (vphi c) (vdphi c) xs d Hd).
      + intros z Hz. apply vphi_derive. lra.
      + intros z Hz. rewrite SG by exact Hz.
        assert (0 < (3 * vK c * q xs) * (exp (vinet_eta c * (1 - z)) * / (z * z * z) * (q z * q xs) * / (q xs * q xs))).
        { apply Rmult_lt_0_compat; [lra|apply PS; exact Hz]. } lra. }
  destruct R0 as [psi [E L]]. exists psi. split; [exact E|].
  revert L. apply filter_imp. intros s (A & B & C). csplit; try assumption; [lra|].
  intro Z. assert (0 < q (psi s) * q xs) by (apply Q; exact C). unfold q at 1 in H. rewrite Z in H. lra.
Qed.

Lemma vlin_cont_t c p t : continuous (fun u => vlin c u p) t.
Proof. apply (ex_derive_continuous (fun u : R => vlin c u p)). unfold vlin. auto_derive. trivial. Qed.
Lemma vlin_cont_p c t p : continuous (fun v => vlin c t v) p.
Proof. apply (ex_derive_continuous (fun v : R => vlin c t v)). unfold vlin. auto_derive. trivial. Qed.

Lemma vlin_near c t p (eps : posreal) : exists d : posreal, forall u v, Rabs (u - t) < d -> Rabs (v - p) < d -> Rabs (vlin c u v - vlin c t p) < eps.
Proof.
  set (M := 1 + Rabs (valpha c * vK c)). assert (HM : 0 < M) by (unfold M; pose proof (Rabs_pos (valpha c * vK c)); lra).
  assert (E : 0 < eps / (2 * M)) by (apply Rdiv_lt_0_compat; [apply cond_pos|lra]).
  exists (mkposreal _ E). cbn. intros u v Hu Hv.
  unfold vlin. replace (v / 10000 - valpha c * vK c * (u - tr) - (p / 10000 - valpha c * vK c * (t - tr)))
    with ((v - p) * / 10000 + - (valpha c * vK c) * (u - t)) by field.
  eapply Rle_lt_trans; [apply Rabs_triang|]. rewrite (Rabs_mult (v - p)), (Rabs_mult (- (valpha c * vK c))), Rabs_Ropp.
  rewrite (Rabs_right (/ 10000)) by lra.
  assert (A1 : Rabs (v - p) * / 10000 <= Rabs (v - p)).
  { rewrite <- (Rmult_1_r (Rabs (v - p))) at 2. apply Rmult_le_compat_l; [apply Rabs_pos|lra]. }
  assert (A2 : Rabs (valpha c * vK c) * Rabs (u - t) <= M * Rabs (u - t)).
  { apply Rmult_le_compat_r; [apply Rabs_pos|unfold M; lra]. }
  assert (A3 : M * Rabs (u - t) < M * (eps / (2 * M))) by (apply Rmult_lt_compat_l; assumption).
  assert (A4 : M * (eps / (2 * M)) = eps / 2) by (field; lra).
  assert (A5 : eps / (2 * M) <= eps / 2).
  { apply Rmult_le_compat_l; [left; apply cond_pos|]. apply Rinv_le_contravar; [lra|]. unfold M. pose proof (Rabs_pos (valpha c * vK c)). lra. }
  lra.
Qed.

Theorem vinet_branch_exists c t p xs : vK c <> 0 -> 0 < xs -> vinet_nondeg c xs -> vinet_fn c t p xs = 0 ->
  exists X, X t p = xs /\ vinet_branch c X t p.
Proof.
  intros HK Hx Hn HF. destruct (psi_exists c xs HK Hx Hn) as [psi [E [eps L]]].
  assert (HL : vphi c xs = vlin c t p) by (apply fn_phi; [lra|exact HF]).
  exists (fun u v => psi (vlin c u v)). split; [rewrite <- HL; exact E|].
  destruct (vlin_near c t p eps) as [d Hd]. exists d. intros u v Hu Hv.
  destruct (L (vlin c u v)) as (A & B & C & D).
  { change (Rabs (vlin c u v - vphi c xs) < eps). rewrite HL. apply Hd; assumption. }
  csplit; try assumption.
  - apply fn_phi; [lra|exact A].
  - apply (continuous_comp (fun u => vlin c u v) psi); [apply vlin_cont_t|exact B].
  - apply (continuous_comp (fun v => vlin c u v) psi); [apply vlin_cont_p|exact B].
Qed.
Theorem vinet_branch0_exists c t xs : vK c <> 0 -> 0 < xs -> vinet_nondeg c xs -> vinet_fn c t pr xs = 0 ->
  exists X0, X0 t = xs /\ vinet_branch0 c X0 t.
Proof.
  intros HK Hx Hn HF. destruct (vinet_branch_exists c t pr xs HK Hx Hn HF) as [X [E [eps B]]].
  exists (fun u => X u pr). split; [exact E|]. exists eps. intros u Hu.
  destruct (B u pr Hu) as (A1 & A2 & A3 & A4 & _); [rewrite Rminus_eq_0, Rabs_R0; apply cond_pos|]. auto.
Qed.

(** the Newton step uses the true derivative of the residual *)
Lemma vinet_dfn_ok c t p x : is_derive (vinet_fn c t p) x (vinet_dfn c t p x).
Proof.
  unfold vinet_fn, vinet_dfn. generalize (vinet_eta c) tr. intros eta tr'. dec. auto_derive; [trivial|].
  change (10 * / 10 + - x) with (10 * / 10 - x). field.
Qed.
(** the pair returned by the loop is one Newton step from the last iterate, with the residual at that iterate *)
Lemma vinet_newton_last c t p fuel x : exists y,
  vinet_newton c t p fuel x = (y - vinet_fn c t p y / vinet_dfn c t p y, vinet_fn c t p y).
Proof.
  revert x. induction fuel as [|n IH]; intro x; cbn [vinet_newton].
  - exists x. reflexivity.
  - destruct (Rlt_dec dbl_epsilon (vinet_fn c t p x * vinet_fn c t p x)) as [H|H]; [apply IH|]. exists x. reflexivity.
Qed.
(** starting from an exact root the loop returns it at once *)
Lemma vinet_newton_root c t p fuel x : vinet_fn c t p x = 0 -> vinet_newton c t p fuel x = (x, 0).
Proof.
  intro H. destruct fuel; cbn [vinet_newton]; rewrite H; replace (x - 0 / vinet_dfn c t p x) with x by (unfold Rdiv; ring); [reflexivity|].
  destruct (Rlt_dec dbl_epsilon (0 * 0)) as [L|L]; [|reflexivity]. exfalso.
  unfold dbl_epsilon in L. assert (0 < / 2 ^ 52) by (apply Rinv_0_lt_compat, pow_lt; lra). lra.
Qed.
