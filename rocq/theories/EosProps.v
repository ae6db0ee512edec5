(** Properties C09-C13 and C40: standard-state thermodynamics (sources/gibbs.c). *)
From Coq Require Import Reals Lra.
From Verif Require Import RealTac EosSpec EosModel EosProofs EosVinet HpModel HpProofs HpConsist.
Local Open Scope R_scope.

(** C09: solids with the Berman EOS, Berman or Saxena heat capacity: at every T > 0 that is not the
    temperature of a lambda transition, and every P, the eleven returned numbers are consistent. *)
Theorem C09_solid_berman_consistent : forall h0 s0 m e t p,
  0 < t -> smooth_at m t -> thermo_consistent (solid_berman h0 s0 m e) t p.
Proof. exact solid_berman_consistent. Qed.
Print Assumptions C09_solid_berman_consistent.
(** forsterite-like parameters at 1473.15 K; beta-quartz-like transition at 848 K *)
Theorem C09_nonvacuous : 0 < 1473.15 /\ smooth_at (CP_BERMAN (mkCpBerman 238.64 (-2001.3) 0 (-116240000.0) 0 0 0 0)) 1473.15
  /\ smooth_at (CP_BERMAN (mkCpBerman 80.01 (-240.3) (-3546700.0) 491570000.0 848.0 0 (-0.0918725) 0.00024607)) 700.
Proof. unfold smooth_at. cbn [cpT]. dec. csplit; [lra|left; reflexivity|right; lra]. Qed.

(** C12: the reference state alone *)
Theorem C12_reference_state_consistent : forall h0 s0 m t p,
  0 < t -> smooth_at m t -> energies_consistent (fun t _ => solid_ref h0 s0 m t) t p.
Proof. intros h0 s0 m t p Ht Hm. exact (proj1 (solid_ref_consistent h0 s0 m t p Ht Hm)). Qed.
Print Assumptions C12_reference_state_consistent.
(** ... and at 298.15 K and 1 bar they are the tabulated enthalpy and entropy *)
Theorem C12_reference_values : forall h0 s0 m e,
  (match m with CP_BERMAN c => tr < cpT c \/ cpT c = 0 | _ => True end) ->
  tH (solid_berman h0 s0 m e tr pr) = h0 /\ tS (solid_berman h0 s0 m e tr pr) = s0 /\ tV (solid_berman h0 s0 m e tr pr) = bv0 e.
Proof.
  assert (Htr : 0 < tr) by (unfold tr; dec; lra). pose proof (sqrt_lt_R0 tr Htr) as Hs.
  assert (L : ln (tr / tr) = 0) by (unfold Rdiv; rewrite Rinv_r by lra; exact ln_1).
  intros h0 s0 m e Hm. unfold solid_berman, tplus. cbn [tH tS tV].
  assert (EH : tH (berman_eos e tr pr) = 0) by (unfold berman_eos, SQUARE; cbn [tH]; unfold Rdiv; ring).
  assert (ES : tS (berman_eos e tr pr) = 0) by (unfold berman_eos; cbn [tS]; ring).
  assert (EV : tV (berman_eos e tr pr) = bv0 e) by (unfold berman_eos; cbn [tV]; dec; field).
  rewrite EH, ES, EV. destruct m as [c|c]; cbn [solid_ref].
  - unfold berman_cp. destruct (Req_EM_T (cpT c) 0.0) as [Z|Z].
    + cbn [tH tS tV]. rewrite L. dec. csplit; try ring; field; lra.
    + destruct (Rlt_dec (cpT c) tr) as [B|B].
      * destruct Hm as [Hm|Hm]; [lra|]. exfalso; apply Z; rewrite Hm; dec; lra.
      * cbn [tH tS tV]. rewrite L. dec. csplit; try ring; field; lra.
  - unfold saxena_cp. cbn [tH tS tV]. rewrite L. csplit; unfold Rdiv; ring.
Qed.
Print Assumptions C12_reference_values.
Theorem C12_nonvacuous : tr < 848.0 \/ 848.0 = 0. Proof. left. unfold tr. dec. lra. Qed.

(** C10: solids with the Vinet EOS. X and X0 are the compressions found by the two Newton loops at P and at 1 bar,
    taken as exact positive roots, continuous in T and P, of the equation the loops solve, away from the
    turning point of that equation (2 - x + eta x - eta x^2 <> 0). *)
Theorem C10_solid_vinet_consistent : forall h0 s0 m c X X0 t p,
  vK c <> 0 -> vinet_eta c <> 0 -> 0 < t -> smooth_at m t ->
  vinet_branch c X t p -> vinet_branch0 c X0 t ->
  thermo_consistent (solid_vinet h0 s0 m c X X0) t p.
Proof.
  intros h0 s0 m c X X0 t p HK He Ht Hm B B0.
  apply (consistent_plus (fun t _ => solid_ref h0 s0 m t) (fun t p => vinet_eos c (X t p) (X0 t) t p)).
  - apply solid_ref_consistent; assumption.
  - exact (vinet_eos_consistent c HK He X X0 t p Ht B B0).
Qed.
Print Assumptions C10_solid_vinet_consistent.
(** such roots exist around any nondegenerate root *)
Theorem C10_branches_exist : forall c t p xs, vK c <> 0 -> 0 < xs -> vinet_nondeg c xs -> vinet_fn c t p xs = 0 ->
  exists X, X t p = xs /\ vinet_branch c X t p.
Proof. exact vinet_branch_exists. Qed.
Print Assumptions C10_branches_exist.
(** what the loops return: one Newton step (with the true derivative) past the last iterate, whose squared residual is at
    most DBL_EPSILON or the 500 passes are used up; an exact root is a fixed point *)
Theorem C10_newton : forall c t p fuel x, exists y,
  fst (vinet_newton c t p fuel x) = y - vinet_fn c t p y / vinet_dfn c t p y
  /\ snd (vinet_newton c t p fuel x) = vinet_fn c t p y
  /\ is_derive (vinet_fn c t p) y (vinet_dfn c t p y)
  /\ (vinet_fn c t p x = 0 -> vinet_newton c t p fuel x = (x, 0)).
Proof.
  intros c t p fuel x. destruct (vinet_newton_last c t p fuel x) as [y E]. exists y. rewrite E. cbn [fst snd].
  csplit; try reflexivity; [apply vinet_dfn_ok|]. intro H. rewrite <- E. now apply vinet_newton_root.
Qed.
Print Assumptions C10_newton.
(** at 298.15 K and zero pressure x = 1 is a nondegenerate root: the hypotheses are met by stishovite-like parameters *)
Theorem C10_nonvacuous : let c := mkEosVinet 1.4014 0.0000186 312.9 4.8 in
  exists X X0, vinet_branch c X tr 0 /\ X tr 0 = 1 /\ vK c <> 0 /\ vinet_eta c <> 0 /\
  (exists t1, vinet_branch0 c X0 t1 /\ X0 t1 = 1).
Proof.
  intro c. assert (N : vinet_nondeg c 1) by (unfold vinet_nondeg, vinet_eta, c; cbn [vKp]; dec; lra).
  assert (HK : vK c <> 0) by (unfold c; cbn [vK]; dec; lra).
  destruct (vinet_branch_exists c tr 0 1 HK Rlt_0_1 N) as [X [EX BX]].
  { unfold vinet_fn. replace (1.0 - 1) with 0 by (dec; lra). rewrite Rminus_eq_0. unfold Rdiv. ring. }
  set (t1 := tr + pr / 10000 / (valpha c * vK c)).
  destruct (vinet_branch0_exists c t1 1 HK Rlt_0_1 N) as [X0 [E0 B0]].
  { unfold vinet_fn. replace (1.0 - 1) with 0 by (dec; lra). unfold t1, c, pr. cbn [valpha vK]. generalize tr; intro tr'. dec. field. }
  exists X, X0. csplit; try assumption.
  - unfold vinet_eta, c; cbn [vKp]; dec; lra.
  - exists t1. split; assumption.
Qed.

(** C11: liquids with the Kress polynomial: everything in T, and all volume derivatives, are consistent. *)
Theorem C11_liquid_energies : forall l c t p, 0 < t -> 0 < ltfus l -> liq_smooth l c t ->
  energies_consistent (kress_liquid l c) t p /\ volumes_consistent (kress_liquid l c) t p.
Proof. intros l c t p H1 H2 H4. exact (conj (kress_energies l c t p H1 H2 H4) (kress_volumes l c t p)). Qed.
Print Assumptions C11_liquid_energies.
(** V = dG/dP holds when the quadratic coefficient is zero ... *)
Theorem C11_liquid_volume_partial : forall l c t p, ld2vdp2 l = 0 -> volume_is_dGdP (kress_liquid l c) t p.
Proof. intros l c t p H. unfold volume_is_dGdP. eapply is_derive_eq; [apply kress_dGdP|]. rewrite H. field. Qed.
(** the same as a property of its own (C101) *)
Theorem C101_liquid_volume : forall l c t p, ld2vdp2 l = 0 -> volume_is_dGdP (kress_liquid l c) t p.
Proof. exact C11_liquid_volume_partial. Qed.
Print Assumptions C11_liquid_volume_partial.
(** ... and fails at every T and P for every liquid component whose quadratic coefficient is not zero *)
Theorem C11_liquid_volume_refuted : forall l c t p, ld2vdp2 l <> 0 -> ~ volume_is_dGdP (kress_liquid l c) t p.
Proof.
  intros l c t p H N. unfold volume_is_dGdP in N. pose proof (kress_dGdP l c t p) as D.
  apply is_derive_unique in N. apply is_derive_unique in D. rewrite D in N. apply H. lra.
Qed.
Print Assumptions C11_liquid_volume_refuted.
(** the SiO2 liquid component of liq_struct_data.h *)
Definition liqSiO2 := mkLiqKress 2.690 0.0 (-1.89e-5) 1.3e-8 3.6e-10 1999.0 0.0 82.6 8915.54 4.46.
Theorem C11_nonvacuous : 0 < 1673 /\ 0 < ltfus liqSiO2 /\ liq_smooth liqSiO2 (mkCpBerman 83.51 (-374.7) (-2455400.0) 280070000.0 0 0 0 0) 1673
  /\ ld2vdp2 liqSiO2 <> 0.
Proof. unfold liq_smooth, liqSiO2; cbn [ltfus ltglass ld2vdp2 cpT]; dec. csplit; try lra. Qed.

(** C13: Holland-Powell properties: consistent wherever the compressed base stays positive, away from the Landau
    transition temperature, when the Landau volume is zero (as in every call gibbs() makes) *)
Theorem C13_HP_consistent : forall c t p, hp_ok (pK298 c) t p -> pVmax c = 0 -> hp_smooth c t p ->
  thermo_consistent (HPproperties c) t p.
Proof. exact HP_consistent. Qed.
Print Assumptions C13_HP_consistent.
(** with a Landau volume: energies, V = dG/dP, dV/dT and d2V/dT2 only *)
Theorem C13_HP_landau_volume_partial : forall c t p, hp_ok (pK298 c) t p -> hp_smooth c t p ->
  energies_consistent (HPproperties c) t p /\ volume_is_dGdP (HPproperties c) t p
  /\ is_derive (fun t => tV (HPproperties c t p)) t (tVt (HPproperties c t p))
  /\ is_derive (fun t => tVt (HPproperties c t p)) t (tVtt (HPproperties c t p)).
Proof. exact HP_main. Qed.
Print Assumptions C13_HP_landau_volume_partial.
(** dV/dP is wrong in that case: Holland-Powell quartz at 635.25 K *)
Theorem C13_HP_landau_dVdP_refuted : exists c t p, hp_ok (pK298 c) t p /\ hp_smooth c t p /\
  ~ is_derive (fun p => tV (HPproperties c t p)) p (tVp (HPproperties c t p)).
Proof.
  exists hpQTZ, 635.25, 0. destruct hpQTZ_below as (A & B). csplit; [exact A| |exact HP_dVdP_wrong].
  intros _ _ E. destruct B as (_ & _ & B). rewrite <- E in B. lra.
Qed.
Print Assumptions C13_HP_landau_dVdP_refuted.
(** the two biotite end members computed this way, over the whole range 0 < T <= 6000 K, P >= 0 *)
Theorem C13_biotites_consistent : forall t p, 0 < t -> t <= 6000 -> 0 <= p ->
  thermo_consistent tbiTaj t p /\ (t <> 955 -> thermo_consistent fbiTaj t p).
Proof.
  intros t p H1 H2 H3. assert (K : forall k, 0 < k -> hp_ok k t p) by (intros k Hk; apply hp_ok_region; assumption).
  split; [apply tbiTaj_consistent|intro N; apply fbiTaj_consistent; [|exact N]]; unfold tbi_ok, fbi_ok; csplit; apply K; cbn; dec; lra.
Qed.
Print Assumptions C13_biotites_consistent.
Theorem C13_nonvacuous : hp_ok (pK298 hpHEM) 800 5000 /\ pVmax hpHEM = 0 /\ hp_smooth hpHEM 800 5000.
Proof. split; [apply hp_ok_region; cbn; dec; lra|]. split; [exact z00|]. intros _ _. rewrite hem_Tc. lra. Qed.

(** C40: the free energy is continuous in T through the transitions. *)
Lemma piecewise_continuous (f g h : R -> R) x : continuous f x -> continuous g x -> f x = g x ->
  (forall y, h y = f y \/ h y = g y) -> continuous h x.
Proof.
  intros Cf Cg E H P HP. assert (Ex : h x = f x) by (destruct (H x) as [->| ->]; congruence).
  rewrite Ex in HP. pose proof (Cf P HP) as A. rewrite E in HP. pose proof (Cg P HP) as B.
  change (locally x (fun y => P (f y))) in A. change (locally x (fun y => P (g y))) in B. change (locally x (fun y => P (h y))).
  generalize (filter_and _ _ A B). apply filter_imp. intros y (Y1 & Y2). destruct (H y) as [->| ->]; assumption.
Qed.
Theorem C40_lambda_continuous : forall h0 s0 c e t p, 0 < t ->
  continuous (fun t => tG (solid_berman h0 s0 (CP_BERMAN c) e t p)) t.
Proof.
  intros h0 s0 c e t p Ht. destruct (Req_dec (cpT c) 0) as [Z|Z].
  { destruct (solid_berman_consistent h0 s0 (CP_BERMAN c) e t p Ht (or_introl Z)) as ((D & _) & _).
    apply (ex_derive_continuous (fun t => tG (solid_berman h0 s0 (CP_BERMAN c) e t p))). eexists; exact D. }
  destruct (Req_dec t (cpT c)) as [E|E].
  2:{ destruct (solid_berman_consistent h0 s0 (CP_BERMAN c) e t p Ht (or_intror E)) as ((D & _) & _).
    apply (ex_derive_continuous (fun t => tG (solid_berman h0 s0 (CP_BERMAN c) e t p))). eexists; exact D. }
  set (f := fun t => tG (berman_base h0 s0 c t) + tG (lambda_part (l1 c) (l2 c) t) + tG (berman_eos e t p)).
  set (g := fun t => tG (berman_base (h_above h0 c) (s_above s0 c) c t) + tG (berman_eos e t p)).
  assert (CE : continuous (fun t => tG (berman_eos e t p)) t).
  { destruct (berman_eos_consistent e t p Ht) as ((D & _) & _).
    apply (ex_derive_continuous (fun t => tG (berman_eos e t p))). eexists; exact D. }
  assert (CB : forall h s, continuous (fun t => tG (berman_base h s c t)) t).
  { intros h s. destruct (berman_base_energy h s c t p Ht) as (D & _).
    apply (ex_derive_continuous (fun t => tG (berman_base h s c t))). eexists; exact D. }
  assert (CL : continuous (fun t => tG (lambda_part (l1 c) (l2 c) t)) t).
  { destruct (lambda_energy (l1 c) (l2 c) t p Ht) as (D & _).
    apply (ex_derive_continuous (fun t => tG (lambda_part (l1 c) (l2 c) t))). eexists; exact D. }
  apply piecewise_continuous with f g.
  - apply (continuous_plus (fun t => tG (berman_base h0 s0 c t) + tG (lambda_part (l1 c) (l2 c) t)) (fun t => tG (berman_eos e t p))); [|exact CE].
    apply (continuous_plus (fun t => tG (berman_base h0 s0 c t)) (fun t => tG (lambda_part (l1 c) (l2 c) t))); [apply CB|exact CL].
  - apply (continuous_plus (fun t => tG (berman_base (h_above h0 c) (s_above s0 c) c t)) (fun t => tG (berman_eos e t p))); [apply CB|exact CE].
  - unfold f, g. unfold berman_base, berman_cp, lambda_part, h_above, s_above. cbn [k0 k1 k2 k3 cpT cpH l1 l2].
    destruct (Req_EM_T 0 0.0) as [_|N]; [|exfalso; apply N; apply zero00]. cbn [tG]. rewrite E in Ht |- *. assert (Htr : 0 < tr) by (unfold tr; dec; lra).
    pose proof (sqrt_lt_R0 _ Ht). pose proof (sqrt_lt_R0 _ Htr). dec. field. csplit; lra.
  - intro y. unfold solid_berman, tplus, f, g. cbn [tG solid_ref]. destruct (Rlt_dec (cpT c) y) as [Y|Y].
    + right. rewrite berman_cp_above by assumption. reflexivity.
    + left. destruct (Req_dec y (cpT c)) as [Ey|Ey]; [|rewrite berman_cp_below by (try assumption; lra); unfold tplus; reflexivity].
      unfold berman_base, berman_cp, lambda_part, SQUARE. cbn [k0 k1 k2 k3 cpT cpH l1 l2].
      destruct (Req_EM_T 0 0.0) as [_|N]; [|exfalso; apply N; apply zero00].
      destruct (Req_EM_T (cpT c) 0.0) as [N|_]; [exfalso; apply Z; rewrite N; symmetry; apply zero00|].
      destruct (Rlt_dec (cpT c) y); [contradiction|]. cbn [tG]. ring.
Qed.
Print Assumptions C40_lambda_continuous.
(** it is false at 955 K for the hematite component of the ferri-eastonite end member, at every pressure *)
Theorem C40_hematite_refuted : forall p, 0 <= p -> ~ continuous (fun t => tG (HPproperties hpHEM t p)) 955.
Proof. exact hematite_jump. Qed.
Print Assumptions C40_hematite_refuted.
