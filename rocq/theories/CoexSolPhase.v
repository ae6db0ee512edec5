(** C150 and C151 for the fifteen solid solutions without ordering parameters. *)
From Coq Require Import Reals QArith Qreals ZArith NArith Arith List Lia Lra Bool.
From Coquelicot Require Import Coquelicot.
From Verif Require Import RealTac LaSpec OrdLimits Sym SymNorm SymPath SolnModel SolnSpec ConData ConProofs SolnData SolnProofs SolnProps CoexSolModel CoexSolSpec CoexSolProofs CoexSolProps.
From Verif Require MassModel MassProofs StepProofs.
Import List ListNotations.
Local Open Scope R_scope.
Local Open Scope nat_scope.
Local Open Scope R_scope.

(** the functions of the phase that the test calls; testXxx(FIFTH) is any function of the composition variables *)
Definition solidOf (ph : phase) (test : (nat -> R) -> bool) : Solid :=
  {| sNa := ph_na ph; sNr := ph_nr ph; sR := fun m i => con_r (ph_con ph) i m; sX := fun r i => con_xr (ph_con ph) i r; sDx := fun r i j => con_dr (ph_con ph) i j r;
     sTest := test; sG := gmix ph; sGx := fun t p r i => gmix_dx ph i t p r |}.
(** the test looks at the composition variables only *)
Definition reads (n : nat) (test : (nat -> R) -> bool) : Prop := forall r r', (forall i, (i < n)%nat -> r i = r' i) -> test r = test r'.

Definition vsk (k : nat) : N := N.of_nat k.
Definition varCheck (ph : phase) : bool :=
  varsIn vsk (ph_nr ph + 2) (ph_g ph) && sitesIn (ph_sites ph) vsk (ph_nr ph + 2) && distinct vsk (ph_nr ph + 2) && domOk (ph_sites ph) [0%N] (ph_g ph) && sitesOk (ph_sites ph).
Lemma phases_vars : forallb varCheck phases = true. Proof. vm_compute. reflexivity. Qed.

Lemma varsIn_val n s1 s2 e1 e2 x : varsIn vsk n x = true -> (forall k, s1 k = s2 k) -> (forall k, (k < n)%nat -> e1 (vsk k) = e2 (vsk k)) -> val s1 e1 x = val s2 e2 x.
Proof.
  intros H Hs He. induction x; cbn in *; auto; try (apply andb_prop in H; destruct H; f_equal; auto).
  - destruct (isVar_ex vsk _ _ H) as (k & Hk & <-). auto.
  - f_equal; auto.
  - now rewrite Hs.
Qed.
Lemma varsIn_denote ss n e1 e2 x : sitesIn ss vsk n = true -> varsIn vsk n x = true -> (forall k, (k < n)%nat -> e1 (vsk k) = e2 (vsk k)) -> denote ss e1 x = denote ss e2 x.
Proof.
  intros HS H He. unfold denote. apply (varsIn_val n); auto. intros k. unfold siteVal. f_equal. unfold rawVal.
  apply (varsIn_val n); auto. destruct (nth_site_cases ss k) as [I| ->]; [|reflexivity]. unfold sitesIn in HS. rewrite forallb_forall in HS. now apply HS.
Qed.
Lemma pt_vsk t p r r' n k : (forall i, (i < n)%nat -> r i = r' i) -> (k < n + 2)%nat -> pt t p r (vsk k) = pt t p r' (vsk k).
Proof.
  intros H Hk. unfold vsk. destruct k as [|[|k]]; [reflexivity|reflexivity|]. rewrite !pt_big by lia. apply H. lia.
Qed.
Lemma phase_wf ph : In ph phases -> (cv_na (ph_con ph) = ph_na ph /\ cv_nr (ph_con ph) = ph_nr ph) /\ conCheck (ph_con ph) = true.
Proof.
  intros I. pose proof (wck ph I) as W. unfold wfCheck in W. apply andb_prop in W. destruct W as (W & _). apply andb_prop in W. destruct W as (W & _). apply andb_prop in W. destruct W as (W & _).
  apply andb_prop in W. destruct W as (W & C). apply andb_prop in W. destruct W as (W & _). apply andb_prop in W. destruct W as (A & B). apply Nat.eqb_eq in A, B. auto.
Qed.
Lemma varck ph : In ph phases -> varCheck ph = true.
Proof. intros I. pose proof phases_vars as H. rewrite forallb_forall in H. auto. Qed.
Lemma phase_linear ph test : In ph phases -> reads (ph_nr ph) test ->
  linearOK (solidOf ph test) (fun i k => Q2R (coef (ph_con ph) i k)) (fun r k => denote [] (rpt r) (nth1 (cv_xr (ph_con ph)) k)).
Proof.
  intros I Rd. destruct (phase_wf ph I) as ((Ea & Er) & C). constructor; cbn [solidOf sNa sNr sR sX sDx sTest sG sGx].
  - intros m i Hi T. rewrite <- Er in Hi. rewrite <- Ea in *. exact (con_r_lin (ph_con ph) C m i T Hi).
  - intros r. rewrite <- Ea. exact (xr_sum (ph_con ph) C r).
  - intros r i Hi. rewrite <- Er in Hi. rewrite <- Ea. exact (r_of_xr (ph_con ph) C r i Hi).
  - exact Rd.
  - intros t p r r' H. pose proof (varck ph I) as V. unfold varCheck in V. apply andb_prop in V. destruct V as (V & _). apply andb_prop in V. destruct V as (V & _). apply andb_prop in V. destruct V as (V & _). apply andb_prop in V. destruct V as (V1 & V2).
    unfold gmix, call. apply (varsIn_denote _ (ph_nr ph + 2)); auto. intros k Hk. now apply (pt_vsk t p r r' (ph_nr ph)).
Qed.
(** along every direction the energy has the derivative that the gradient says *)
Lemma phase_path ph : In ph phases -> forall t p r (d : nat -> R), feasible ph t p r ->
  is_derive (fun y => gmix ph t p (fun i => r i + y * d i)) 0 (MassModel.sum (ph_nr ph) (fun i => gmix_dx ph i t p r * d i)).
Proof.
  intros I t p r d F. pose proof (varck ph I) as V. unfold varCheck in V. apply andb_prop in V. destruct V as (V & V5). apply andb_prop in V. destruct V as (V & V4). apply andb_prop in V. destruct V as (V & V3). apply andb_prop in V. destruct V as (V1 & V2).
  set (n := (ph_nr ph + 2)%nat) in *. set (g := fun y : R => pt t p (fun i => r i + y * d i)).
  assert (E0 : forall k, (k < n)%nat -> g 0 (vsk k) = pt t p r (vsk k)) by (intros k Hk; unfold g; apply (pt_vsk t p _ r (ph_nr ph)); [intros; ring|exact Hk]).
  set (dv := fun k => match k with S (S i) => d i | _ => 0 end).
  assert (Gk : forall k, (k < n)%nat -> is_derive (fun y => g y (vsk k)) 0 (dv k)).
  { intros k Hk. unfold g, dv, vsk. destruct k as [|[|k]].
    - apply (is_derive_ext (fun _ => t)); [reflexivity|apply (is_derive_const (K := R_AbsRing) (V := R_NormedModule))].
    - apply (is_derive_ext (fun _ => p)); [reflexivity|apply (is_derive_const (K := R_AbsRing) (V := R_NormedModule))].
    - apply (is_derive_ext (fun y => r k + y * d k)). { intros y. rewrite pt_big by lia. replace (N.to_nat (N.of_nat (S (S k))) - 2)%nat with k by lia. reflexivity. }
      auto_derive; [auto|ring]. }
  assert (Ins : inside (ph_sites ph) [0%N] (g 0)).
  { destruct (feasible_inside ph t p r F) as (A & B). split.
    - intros s Hs. specialize (A s Hs). unfold rawVal in *. rewrite (varsIn_val n (fun _ => 0) (fun _ => 0) (g 0) (pt t p r)); auto. unfold sitesIn in V2. rewrite forallb_forall in V2. now apply V2.
    - intros v [<-|[]]. exact (proj1 F). }
  assert (Cont : forall k, (k < n)%nat -> filterlim (fun y => g y (vsk k)) (locally 0) (locally (g 0 (vsk k)))).
  { intros k Hk. apply (ex_derive_continuous (K := R_AbsRing) (V := R_NormedModule) (fun y => g y (vsk k))). eexists. now apply Gk. }
  set (dd := fun k => match k with O => Neg (ph_s ph) | 1%nat => ph_v ph | S (S i) => nth1 (ph_gx ph) i end).
  pose proof (path_derive (ph_sites ph) vsk n [0%N] V5 V2 V3 g 0 Ins Cont (ph_g ph) dd dv V4 V1) as P.
  eapply is_derive_eq'; [apply P|].
  - intros k Hk. destruct k as [|[|k]]; cbn [dd].
    + pose proof (sck ph I) as K. unfold sCheck in K. do 4 (apply andb_prop in K; destruct K as (K & _)). unfold pD in K. apply deriveCheck_ok in K. exact K.
    + pose proof (vck ph I) as K. unfold vCheck in K. do 6 (apply andb_prop in K; destruct K as (K & _)). unfold pD in K. apply deriveCheck_ok in K. exact K.
    + pose proof (gck ph I) as K. unfold gCheck in K. apply (upto_ok _ _ k) in K; [|unfold n in Hk; lia]. apply andb_prop in K. destruct K as (K & _). unfold pD in K. apply deriveCheck_ok in K. replace (vsk (S (S k))) with (rv k); [exact K|]. unfold rv, vsk. lia.
  - exact Gk.
  - match goal with |- ?a = ?b => change (@eq R a b) end. unfold n. replace (ph_nr ph + 2)%nat with (S (S (ph_nr ph))) by lia. change sum with MassModel.sum. rewrite !StepProofs.sum_S_front. cbn [dv dd]. rewrite !Rmult_0_r, !Rplus_0_l.
    apply MassProofs.sum_ext. intros i Hi. f_equal. unfold gmix_dx, call.
    transitivity (denote (ph_sites ph) (g 0) (nth1 (ph_gx ph) i)); [reflexivity|]. unfold g. f_equal. apply FunctionalExtensionality.functional_extensionality. intros v. unfold pt. destruct v as [|[| |]]; try reflexivity; ring.
Qed.
Lemma phase_interior ph test t p r : In ph phases -> feasible ph t p r ->
  (forall d : nat -> R, locally 0 (fun y => test (fun i => r i + y * d i) = true)) -> interior (solidOf ph test) t p r.
Proof.
  intros I F T d. cbn [solidOf sG sGx sNr sTest]. split; [now apply phase_path|apply T].
Qed.

(** ** C158: for these phases the tangent-plane test decides stability *)
(** no accepted composition lies below the tangent plane: the composition is stable; one does: it is not *)
Theorem C158_phases_tangent_plane : forall ph, In ph phases -> forall test, reads (ph_nr ph) test -> forall t p mu0 (m : nat -> R), 0 < MassModel.sum (ph_na ph) m ->
  let r := fun i => con_r (ph_con ph) i m in
  feasible ph t p r -> (forall d : nat -> R, locally 0 (fun y => test (fun i => r i + y * d i) = true)) ->
  (stableS (solidOf ph test) mu0 t p m <->
   forall z, test z = true -> 0 <= gmix ph t p z - gmix ph t p r - MassModel.sum (ph_nr ph) (fun i => gmix_dx ph i t p r * (z i - r i))).
Proof.
  intros ph I test Rd t p mu0 m P r F T. pose proof (phase_linear ph test I Rd) as Lin. split.
  - intros St z Hz. destruct (Rle_dec 0 (gmix ph t p z - gmix ph t p r - MassModel.sum (ph_nr ph) (fun i => gmix_dx ph i t p r * (z i - r i)))) as [L|L]; [exact L|]. exfalso.
    destruct (gap_unstableS (solidOf ph test) _ _ Lin t p mu0 m z P (phase_interior ph test t p r I F T) Hz) as (part & rest & Ap & Ar & E & Lt).
    { apply Rnot_le_lt. intros Q. apply L. exact Q. }
    specialize (St part rest Ap Ar (fun i _ => E i)). lra.
  - intros H. apply (C151_stable (solidOf ph test) _ _ t p mu0 m Lin P). exact H.
Qed.
(** a stable instance of one of these phases gets no candidate from the searches *)
Theorem C158_phases_kept : forall ph, In ph phases -> forall test, reads (ph_nr ph) test -> forall t p h0 mu0 (m : nat -> R),
  (forall i, (i < ph_na ph)%nat -> m i <> 0) -> 0 < MassModel.sum (ph_na ph) m ->
  let r := fun i => con_r (ph_con ph) i m in
  feasible ph t p r -> (forall d : nat -> R, locally 0 (fun y => test (fun i => r i + y * d i) = true)) ->
  stableS (solidOf ph test) mu0 t p m -> forall cs, searchesS (solidOf ph test) t p h0 m cs -> cs = [].
Proof.
  intros ph I test Rd t p h0 mu0 m W P r F T St cs S. destruct cs as [|x cs]; [reflexivity|]. exfalso.
  destruct (searches_inS _ _ _ _ _ _ x S (or_introl eq_refl)) as (k & _ & Tr).
  destruct (candidate_gap (solidOf ph test) t p h0 m k x W Tr) as (z & Tz & Neg).
  pose proof (proj1 (C158_phases_tangent_plane ph I test Rd t p mu0 m P F T) St z Tz) as Q.
  exact (Rlt_irrefl 0 (Rle_lt_trans _ _ _ Q Neg)).
Qed.

(** a case: feldspar (test of sources/feldspar.c 320-326), one mole of each end-member at 1000 K and 1000 bar *)
From Verif Require LiqModel LiqProofs CoexModel CoexProps CoexGrad.
Theorem C158_case : In Fld phases /\ let test := CoexModel.feasibleR 2 in let m := fun _ : nat => 1 in let r := fun i => con_r (ph_con Fld) i m in
  reads (ph_nr Fld) test /\ 0 < MassModel.sum (ph_na Fld) m /\ (forall i, (i < ph_na Fld)%nat -> m i <> 0) /\ feasible Fld 1000 1000 r /\ (forall d : nat -> R, locally 0 (fun y => test (fun i => r i + y * d i) = true)).
Proof.
  assert (I : In Fld phases) by (left; reflexivity). split; [exact I|].
  intros test m r. pose proof (C14_C15_case Fld I) as (Pm & F). change (fun _ : nat => 1) with m in Pm, F. split; [|split; [|split; [|split]]].
  - change (ph_nr Fld) with 2%nat. assert (Q : forall q q' : nat -> R, (forall i, (i < 2)%nat -> q i = q' i) -> test q = true -> test q' = true).
    { intros q q' H. unfold test. rewrite !CoexProps.feasibleR_spec. unfold LiqModel.testR. cbn [MassModel.sum]. rewrite !(H 0%nat), !(H 1%nat) by lia. intros (A & B). split; [|exact B]. intros i Hi. rewrite <- (H i Hi). now apply A. }
    intros q q' H. apply eq_true_iff_eq. split; apply Q; [exact H|intros i Hi; symmetry; now apply H].
  - exact Pm.
  - intros i _. unfold m. lra.
  - exact F.
  - destruct (phase_wf Fld I) as ((Ea & Er) & C). assert (Tm : 0 < total (cv_na (ph_con Fld)) m) by (rewrite Ea; cbn; unfold m; lra).
    assert (R0 : r 0%nat = 1 / 3).
    { unfold r. rewrite (con_r_lin (ph_con Fld) C m _ Tm) by (rewrite Er; cbn; lia). rewrite Ea. change (ph_na Fld) with 3%nat. cbn [sumTo total]. unfold m.
      set (c0 := coef (ph_con Fld) 0 0). set (c1 := coef (ph_con Fld) 0 1). set (c2 := coef (ph_con Fld) 0 2). vm_compute in c0, c1, c2. subst c0 c1 c2. unfold Q2R. cbn. lra. }
    assert (R1 : r 1%nat = 1 / 3).
    { unfold r. rewrite (con_r_lin (ph_con Fld) C m _ Tm) by (rewrite Er; cbn; lia). rewrite Ea. change (ph_na Fld) with 3%nat. cbn [sumTo total]. unfold m.
      set (c0 := coef (ph_con Fld) 1 0). set (c1 := coef (ph_con Fld) 1 1). set (c2 := coef (ph_con Fld) 1 2). vm_compute in c0, c1, c2. subst c0 c1 c2. unfold Q2R. cbn. lra. }
    intros d.
    assert (D0 : is_derive (fun y => r 0%nat + y * d 0%nat) 0 (d 0%nat)) by (auto_derive; [auto|ring]).
    assert (D1 : is_derive (fun y => r 1%nat + y * d 1%nat) 0 (d 1%nat)) by (auto_derive; [auto|ring]).
    assert (D2 : is_derive (fun y => 1 - (r 0%nat + y * d 0%nat) - (r 1%nat + y * d 1%nat)) 0 (- d 0%nat - d 1%nat)) by (auto_derive; [auto|ring]).
    pose proof (CoexGrad.near_pos _ _ 0 D0 ltac:(rewrite R0; lra)) as N0. pose proof (CoexGrad.near_pos _ _ 0 D1 ltac:(rewrite R1; lra)) as N1. pose proof (CoexGrad.near_pos _ _ 0 D2 ltac:(rewrite R0, R1; lra)) as N2.
    generalize (filter_and _ _ N0 (filter_and _ _ N1 N2)). apply filter_imp. intros y (A & B & E). unfold test. apply CoexProps.feasibleR_spec. split; [|cbn [MassModel.sum]; lra].
    intros [|[|i]] Hi; [lra|lra|lia].
Qed.
