(** C14, C15, C16 for the solution phases.

    [phases] (SolnData.v) are the fifteen solid and alloy solutions without
    ordering parameters: feldspar, garnet, biotite, hornblende, leucite,
    majorite, olivine-sx, perovskite, ringwoodite, wadsleyite, wustite,
    ilmenite, alloy-liquid, alloy-solid, kalsilite. [convs] (ConData.v) are
    the conversion functions of all twenty-eight solid, fluid and alloy
    solutions. [feasible ph t p r]: t > 0 and every site fraction of the phase
    is clear of the DBL_EPSILON clamps (positive where the code has none). *)
From Coq Require Import Reals QArith Qreals ZArith NArith List String Lia Lra Bool.
From Coquelicot Require Import Coquelicot.
From Verif Require Import Sym SymNorm SolnModel SolnSpec ConData ConProofs SolnData SolnProofs.
Import List ListNotations.
Local Open Scope R_scope.

Lemma gck ph : In ph phases -> gCheck ph = true. Proof. intros I. pose proof phases_g as H. rewrite forallb_forall in H. auto. Qed.
Lemma sck ph : In ph phases -> sCheck ph = true. Proof. intros I. pose proof phases_s as H. rewrite forallb_forall in H. auto. Qed.
Lemma vck ph : In ph phases -> vCheck ph = true. Proof. intros I. pose proof phases_v as H. rewrite forallb_forall in H. auto. Qed.
Lemma wck ph : In ph phases -> wfCheck ph = true. Proof. intros I. pose proof phases_wf as H. rewrite forallb_forall in H. auto. Qed.
Lemma ack ph : In ph phases -> aCheck ph = true. Proof. intros I. pose proof phases_a as H. rewrite forallb_forall in H. auto. Qed.
Lemma cck c : In c convs -> conCheck c = true. Proof. intros I. pose proof convs_ok as H. rewrite forallb_forall in H. auto. Qed.
Ltac andb K := repeat (let A := fresh "A" in apply andb_prop in K; destruct K as [K A]).

(** C14: gradient, Hessian and third derivatives of the free energy of mixing *)
Theorem C14_gmix : forall ph, In ph phases -> forall t p r, feasible ph t p r ->
  forall i j k, (i < ph_nr ph)%nat -> (j < ph_nr ph)%nat -> (k < ph_nr ph)%nat ->
  partialX i (gmix ph) t p r (gmix_dx ph i t p r)
  /\ partialX j (gmix_dx ph i) t p r (gmix_dx2 ph i j t p r)
  /\ partialX k (gmix_dx2 ph i j) t p r (gmix_dx3 ph i j k t p r).
Proof.
  intros ph I t p r F i j k Li Lj Lk. pose proof (gck ph I) as K. unfold gCheck in K.
  apply (upto_ok _ _ i) in K; auto. apply andb_prop in K. destruct K as [K1 K]. apply (upto_ok _ _ j) in K; auto.
  apply andb_prop in K. destruct K as [K2 K]. apply (upto_ok _ _ k) in K; auto.
  split; [now apply call_X|]. split; now apply call_X.
Qed.
(** C14: entropy, enthalpy and heat capacity *)
Theorem C14_smix_hmix_cpmix : forall ph, In ph phases -> forall t p r, feasible ph t p r ->
  partialT (gmix ph) t p r (- smix ph t p r)
  /\ hmix ph t p r = gmix ph t p r + t * smix ph t p r
  /\ partialT (smix ph) t p r (cpmix ph t p r / t)
  /\ partialT (cpmix ph) t p r (cpmix_dt ph t p r)
  /\ forall i j, (i < ph_nr ph)%nat -> (j < ph_nr ph)%nat ->
       partialX i (smix ph) t p r (smix_dx ph i t p r)
       /\ partialX j (smix_dx ph i) t p r (smix_dx2 ph i j t p r)
       /\ partialX i (cpmix ph) t p r (cpmix_dx ph i t p r).
Proof.
  intros ph I t p r F. pose proof (sck ph I) as K. unfold sCheck in K.
  apply andb_prop in K. destruct K as [K K5]. apply andb_prop in K. destruct K as [K K4]. apply andb_prop in K. destruct K as [K K3]. apply andb_prop in K. destruct K as [K1 K2].
  split; [exact (call_T ph t p r F _ _ K1)|]. split; [exact (call_same ph t p r F _ _ K2)|]. split; [exact (call_T ph t p r F _ _ K3)|]. split; [exact (call_T ph t p r F _ _ K4)|].
  intros i j Li Lj. apply (upto_ok _ _ i) in K5; auto. apply andb_prop in K5. destruct K5 as [K5 K7]. apply andb_prop in K5. destruct K5 as [K5 K6].
  apply (upto_ok _ _ j) in K7; auto. split; [now apply call_X|]. split; now apply call_X.
Qed.
(** C14: volume *)
Theorem C14_vmix : forall ph, In ph phases -> forall t p r, feasible ph t p r ->
  partialP (gmix ph) t p r (vmix ph t p r)
  /\ partialT (vmix ph) t p r (vmix_dt ph t p r) /\ partialP (vmix ph) t p r (vmix_dp ph t p r)
  /\ partialT (vmix_dt ph) t p r (vmix_dt2 ph t p r) /\ partialP (vmix_dt ph) t p r (vmix_dtdp ph t p r)
  /\ partialP (vmix_dp ph) t p r (vmix_dp2 ph t p r)
  /\ forall i j, (i < ph_nr ph)%nat -> (j < ph_nr ph)%nat ->
       partialX i (vmix ph) t p r (vmix_dx ph i t p r)
       /\ partialX j (vmix_dx ph i) t p r (vmix_dx2 ph i j t p r)
       /\ partialT (vmix_dx ph i) t p r (vmix_dxdt ph i t p r)
       /\ partialP (vmix_dx ph i) t p r (vmix_dxdp ph i t p r).
Proof.
  intros ph I t p r F. pose proof (vck ph I) as K. unfold vCheck in K.
  apply andb_prop in K. destruct K as [K K7]. apply andb_prop in K. destruct K as [K K6]. apply andb_prop in K. destruct K as [K K5].
  apply andb_prop in K. destruct K as [K K4]. apply andb_prop in K. destruct K as [K K3]. apply andb_prop in K. destruct K as [K1 K2].
  split; [now apply call_P|]. split; [now apply call_T|]. split; [now apply call_P|]. split; [now apply call_T|]. split; [now apply call_P|]. split; [now apply call_P|].
  intros i j Li Lj. apply (upto_ok _ _ i) in K7; auto. apply andb_prop in K7. destruct K7 as [K7 Q4]. apply andb_prop in K7. destruct K7 as [K7 Q3].
  apply andb_prop in K7. destruct K7 as [Q1 Q2]. apply (upto_ok _ _ j) in Q4; auto.
  split; [now apply call_X|]. split; [now apply call_X|]. split; [now apply call_T|now apply call_P].
Qed.
(** C14: activities and their derivatives *)
Theorem C14_activities : forall ph, In ph phases -> forall t p r, feasible ph t p r ->
  forall i k, (i < ph_na ph)%nat -> (k < ph_nr ph)%nat ->
  act_a ph i t p r = exp (act_mu ph i t p r / (Q2R (83143 # 10000) * t))
  /\ partialX k (act_a ph i) t p r (act_dx ph i k t p r).
Proof.
  intros ph I t p r F i k Li Lk. destruct (proj1 (acheck ph (ack ph I)) i Li) as (K1 & _ & _ & K2). specialize (K2 k Lk). split.
  - unfold act_a. f_equal. exact (call_same ph t p r F _ _ K1).
  - unfold act_dx, act_a, partialX. apply (call_X ph t p r F) in K2. unfold partialX in K2.
    assert (E : forall y, upd r k y k = y) by (intros y; unfold upd; now rewrite Nat.eqb_refl).
    assert (E0 : call ph (nth1 (ph_aArg ph) i) t p (upd r k (r k)) = call ph (nth1 (ph_aArg ph) i) t p r).
    { unfold call. apply denote_ext. intros n. destruct (small_n n) as [->|[->|H]]; auto. rewrite !pt_big by auto. unfold upd.
      destruct (Nat.eqb_spec (N.to_nat n - 2) k); subst; auto. }
    eapply is_derive_eq'.
    + apply (is_derive_comp (K:=R_AbsRing) (V:=R_NormedModule) exp (fun y => call ph (nth1 (ph_aArg ph) i) t p (upd r k y)) (r k)); [|exact K2].
      apply is_derive_Reals. apply derivable_pt_lim_exp.
    + rewrite E0. unfold scal; cbn; unfold mult; cbn. apply Rmult_comm.
Qed.

(** C15: with r the variables that conXxx computes from moles m *)
Theorem C15_potentials_are_partials : forall ph, In ph phases -> forall t p m,
  let r m j := con_r (ph_con ph) j m in
  0 < sumTo (ph_na ph) m -> feasible ph t p (r m) -> forall i, (i < ph_na ph)%nat ->
  partialM i (fun m => sumTo (ph_na ph) m * gmix ph t p (r m)) m (act_mu ph i t p (r m)).
Proof.
  intros ph I t p m r P F i L. exact (mu_partial ph (wck ph I) (ack ph I) t p m P F i L).
Qed.
Theorem C15_euler : forall ph, In ph phases -> forall t p m,
  let r j := con_r (ph_con ph) j m in
  0 < sumTo (ph_na ph) m -> feasible ph t p r ->
  sumTo (ph_na ph) (fun i => con_x (ph_con ph) i m * act_mu ph i t p r) = gmix ph t p r.
Proof.
  intros ph I t p m r P F. pose proof (euler ph (wck ph I) (ack ph I) t p m P F) as E.
  destruct (wf ph (wck ph I)) as (Ena & _ & _ & Cc & _).
  change (sumTo (ph_na ph) m) with (total (ph_na ph) m) in P.
  apply Rmult_eq_reg_l with (total (ph_na ph) m); [|lra]. unfold r. rewrite <- E, <- sumTo_scal. apply sumTo_ext. intros i L.
  rewrite (con_x_frac (ph_con ph) Cc) by (rewrite Ena; auto). rewrite Ena. field. lra.
Qed.
(** along any differentiable path of moles, at constant temperature and pressure *)
Theorem C15_gibbs_duhem : forall ph, In ph phases -> forall t p (m : R -> nat -> R) s0,
  let r s j := con_r (ph_con ph) j (m s) in
  (forall k, ex_derive (fun s => m s k) s0) ->
  0 < sumTo (ph_na ph) (m s0) -> feasible ph t p (r s0) ->
  exists D, (forall i, (i < ph_na ph)%nat -> is_derive (fun s => act_mu ph i t p (r s)) s0 (D i))
    /\ sumTo (ph_na ph) (fun i => con_x (ph_con ph) i (m s0) * D i) = 0.
Proof.
  intros ph I t p m s0 r ED P F. destruct (gibbs_duhem ph (wck ph I) (ack ph I) t p (m s0) P F m s0 (fun k => eq_refl) ED) as (D & HD & Z).
  exists D. split; [exact HD|]. destruct (wf ph (wck ph I)) as (Ena & _ & _ & Cc & _). change (sumTo (ph_na ph) (m s0)) with (total (ph_na ph) (m s0)) in P.
  apply Rmult_eq_reg_l with (total (ph_na ph) (m s0)); [|lra]. rewrite Rmult_0_r. rewrite <- Z, <- sumTo_scal. apply sumTo_ext. intros i L.
  rewrite (con_x_frac (ph_con ph) Cc) by (rewrite Ena; auto). rewrite Ena. field. lra.
Qed.

(** C16: conversions *)
Theorem C16_fractions : forall c, In c convs -> forall m, 0 < sumTo (cv_na c) m ->
  (forall i, (i < cv_na c)%nat -> con_x c i m = m i / sumTo (cv_na c) m)
  /\ sumTo (cv_na c) (fun i => con_x c i m) = 1.
Proof.
  intros c I m P. assert (A : forall i, (i < cv_na c)%nat -> con_x c i m = m i / sumTo (cv_na c) m).
  { intros i L. exact (con_x_frac c (cck c I) m i P L). }
  split; auto. rewrite (sumTo_ext _ _ _ A). rewrite sumTo_div. field. lra.
Qed.
(** moles -> independent variables -> mole fractions (up to the tiny fractions that some phases set to zero) *)
Definition snapTol (c : conv) (i : nat) : R :=
  match find (fun s => Nat.eqb (fst s) i) (cv_snap c) with Some (_, b) => Q2R b | None => 0 end.
Lemma snap_close c i x : Rabs (snap c i x - x) <= Rmax 0 (snapTol c i) /\ (snapTol c i <= Rabs x -> snap c i x = x).
Proof.
  unfold snap, snapTol. destruct (find _ _) as [[j b]|].
  - destruct (Rlt_dec _ _) as [H|H].
    + split; [|intros; lra]. replace (0 - x) with (- x) by lra. rewrite Rabs_Ropp. pose proof (Rmax_r 0 (Q2R b)). lra.
    + split; auto. replace (x - x) with 0 by lra. rewrite Rabs_R0. apply Rmax_l.
  - split; auto. replace (x - x) with 0 by lra. rewrite Rabs_R0. apply Rmax_l.
Qed.
Theorem C16_round_trip : forall c, In c convs -> forall m, 0 < sumTo (cv_na c) m -> forall i, (i < cv_na c)%nat ->
  let x := con_xr c i (fun j => con_r c j m) in
  Rabs (x - con_x c i m) <= Rmax 0 (snapTol c i) /\ (snapTol c i <= Rabs (con_x c i m) -> x = con_x c i m).
Proof.
  intros c I m P i L x. subst x. unfold con_xr. rewrite (xr_of_r c (cck c I) m i P L). rewrite (con_x_frac c (cck c I) m i P L). apply snap_close.
Qed.
(** the thresholds: sqrt(DBL_EPSILON) for one component of feldspar, DBL_EPSILON for olivine, none elsewhere *)
Theorem C16_snap_thresholds : forall c, In c convs -> forall i, snapTol c i <= / 2 ^ 26
  /\ (snapTol c i <> 0 -> cv_file c = "feldspar"%string \/ cv_file c = "olivine"%string).
Proof.
  intros c I i.
  assert (Q : forallb (fun c => forallb (fun s => Qle_bool (snd s) (1 # 67108864)) (cv_snap c)
    && (String.eqb (cv_file c) "feldspar" || String.eqb (cv_file c) "olivine" || match cv_snap c with [] => true | _ => false end)) convs = true) by (vm_compute; reflexivity).
  rewrite forallb_forall in Q. specialize (Q c I). apply andb_prop in Q. destruct Q as [Q1 Q2].
  unfold snapTol. destruct (find _ _) as [[j b]|] eqn:E.
  - split.
    + apply find_some in E. destruct E as [E _]. rewrite forallb_forall in Q1. specialize (Q1 _ E). cbn in Q1. apply Qle_bool_iff in Q1. apply Qle_Rle in Q1.
      unfold Q2R at 2 in Q1. cbn in Q1. lra.
    + intros _. apply orb_prop in Q2. destruct Q2 as [Q2|Q2].
      * apply orb_prop in Q2. destruct Q2 as [Q2|Q2]; apply String.eqb_eq in Q2; auto.
      * destruct (cv_snap c); [discriminate E|discriminate Q2].
  - split; [|lra]. apply Rlt_le. apply Rinv_0_lt_compat. apply pow_lt. lra.
Qed.
(** independent variables -> mole fractions -> independent variables *)
Theorem C16_round_trip_back : forall c, In c convs -> forall r,
  (forall i, (i < cv_na c)%nat -> snapTol c i <= Rabs (denote [] (rpt r) (nth1 (cv_xr c) i))) ->
  forall j, (j < cv_nr c)%nat -> con_r c j (fun i => if (i <? cv_na c)%nat then con_xr c i r else 0) = r j.
Proof.
  intros c I r NS j L. set (m := fun i => if (i <? cv_na c)%nat then con_xr c i r else 0).
  assert (E : forall i, (i < cv_na c)%nat -> m i = denote [] (rpt r) (nth1 (cv_xr c) i)).
  { intros i Li. unfold m. destruct (Nat.ltb_spec i (cv_na c)); [|lia]. unfold con_xr. now apply snap_close; apply NS. }
  assert (T : total (cv_na c) m = 1).
  { change (sumTo (cv_na c) m = 1). rewrite (sumTo_ext _ _ _ E). apply (xr_sum c (cck c I)). }
  rewrite (con_r_lin c (cck c I)) by (auto; rewrite T; lra). rewrite T.
  rewrite (sumTo_ext _ _ (fun k => Q2R (coef c j k) * denote [] (rpt r) (nth1 (cv_xr c) k))) by (intros; now rewrite E).
  rewrite (r_of_xr c (cck c I)) by auto. lra.
Qed.
(** the conversion does not depend on the total amount *)
Theorem C16_scale_invariant : forall c, In c convs -> forall m a, 0 < sumTo (cv_na c) m -> 0 < a ->
  forall i, ((i < cv_nr c)%nat -> con_r c i (fun k => a * m k) = con_r c i m)
  /\ ((i < cv_na c)%nat -> con_x c i (fun k => a * m k) = con_x c i m).
Proof.
  intros c I m a P H i.
  assert (E : total (cv_na c) (fun k => a * m k) = a * total (cv_na c) m) by (exact (sumTo_scal (cv_na c) a m)).
  assert (P' : 0 < total (cv_na c) (fun k => a * m k)) by (rewrite E; apply Rmult_lt_0_compat; auto).
  change (0 < total (cv_na c) m) in P. split; intros L.
  - rewrite !(con_r_lin c (cck c I)) by auto. rewrite E.
    rewrite (sumTo_ext _ (fun k => Q2R (coef c i k) * (a * m k)) (fun k => a * (Q2R (coef c i k) * m k))) by (intros; lra).
    rewrite sumTo_scal. field. lra.
  - rewrite !(con_x_frac c (cck c I)) by auto. rewrite E. field. lra.
Qed.
(** the derivative matrices *)
Theorem C16_derivatives : forall c, In c convs -> forall m, 0 < sumTo (cv_na c) m ->
  forall i j k l, (i < cv_nr c)%nat -> (j < cv_na c)%nat -> (k < cv_na c)%nat -> (l < cv_na c)%nat ->
  partialM j (con_r c i) m (con_dm c i j m)
  /\ partialM k (con_dm c i j) m (con_d2m c i j k m)
  /\ partialM l (con_d2m c i j k) m (con_d3m c i j k l m).
Proof.
  intros c I m P i j k l Li Lj Lk Ll. pose proof (cck c I) as Ck. destruct (proj1 (proj2 (proj2 (proj2 (ck c Ck)))) i j Li Lj) as (A & _ & B).
  destruct (B k Lk) as (B1 & B2). specialize (B2 l Ll).
  split; [exact (con_partial c Ck _ _ m j A P)|]. split; [exact (con_partial c Ck _ _ m k B1 P)|exact (con_partial c Ck _ _ m l B2 P)].
Qed.
Theorem C16_derivatives_back : forall c, In c convs -> forall r i j, (i < cv_na c)%nat -> (j < cv_nr c)%nat ->
  snapTol c i < Rabs (denote [] (rpt r) (nth1 (cv_xr c) i)) -> partialM j (con_xr c i) r (con_dr c i j r).
Proof.
  intros c I r i j Li Lj NS. unfold partialM. pose proof (xr_partial c (cck c I) r i j Li Lj) as D. unfold partialM in D.
  assert (C : continuous (fun y => Rabs (denote [] (rpt (upd r j y)) (nth1 (cv_xr c) i))) (r j)).
  { apply continuous_comp; [|apply continuous_Rabs]. apply (ex_derive_continuous (K:=R_AbsRing) (V:=R_NormedModule)). eexists. exact D. }
  apply (is_derive_ext_loc (fun y => denote [] (rpt (upd r j y)) (nth1 (cv_xr c) i))); [|exact D].
  assert (L : locally (r j) (fun y => snapTol c i < Rabs (denote [] (rpt (upd r j y)) (nth1 (cv_xr c) i)))).
  { apply (C (fun z => snapTol c i < z)). apply (open_gt (snapTol c i)).
    rewrite (denote_ext [] (rpt (upd r j (r j))) (rpt r)); auto. intros n. unfold rpt. destruct (N.ltb n 2); auto. unfold upd. destruct (Nat.eqb_spec (N.to_nat n - 2) j); subst; auto. }
  revert L. apply filter_imp. intros y H. unfold con_xr. symmetry. apply snap_close. lra.
Qed.
(** with nothing in the phase, every output is zero *)
Theorem C16_empty : forall c, In c convs -> forall m, sumTo (cv_na c) m = 0 ->
  forall i j, con_r c i m = 0 /\ con_x c i m = 0 /\ con_dm c i j m = 0.
Proof.
  intros c I m Z i j. change (total (cv_na c) m = 0) in Z. unfold con_r, con_x, con_dm, conCall. destruct (Req_EM_T _ _); auto. contradiction.
Qed.

(** ** Cases: an equimolar mixture of the components of every phase is feasible at 1000 K and 1000 bars *)
Fixpoint sumQ (n : nat) (f : nat -> Q) : Q := match n with O => 0%Q | S n' => Qred (sumQ n' f + f n')%Q end.
Lemma Q2R_red q : Q2R (Qred q) = Q2R q. Proof. apply Qeq_eqR. apply Qred_correct. Qed.
Lemma sumQ_ok n f : Q2R (sumQ n f) = sumTo n (fun k => Q2R (f k)).
Proof. induction n; cbn [sumQ sumTo]; [apply Q2R_0|]. now rewrite Q2R_red, Q2R_plus, IHn. Qed.
Lemma qval_ok eq e x : rawOk x = true -> (forall n, Q2R (eq n) = e n) -> Q2R (qval (fun _ => 0%Q) eq x) = rawVal e x.
Proof.
  intros RO H. unfold rawVal. induction x; cbn [qval val]; cbn in RO; try discriminate RO; auto.
  - apply andb_prop in RO. destruct RO. rewrite Q2R_red, Q2R_plus, IHx1, IHx2; auto.
  - apply andb_prop in RO. destruct RO. rewrite Q2R_red, Q2R_minus, IHx1, IHx2; auto.
  - apply andb_prop in RO. destruct RO. rewrite Q2R_red, Q2R_mult, IHx1, IHx2; auto.
  - destruct x2; try discriminate RO. apply andb_prop in RO. destruct RO as [RO NZ]. cbn [qval val]. rewrite Q2R_red. unfold Qdiv. rewrite Q2R_mult, Q2R_inv, IHx1; auto.
    intros Z. unfold Qeq in Z. cbn in Z. rewrite Z.mul_1_r in Z. rewrite Z in NZ. discriminate NZ.
  - rewrite Q2R_opp, IHx; auto.
Qed.
Definition caseR (c : conv) (j : nat) : Q :=
  if (j <? cv_nr c)%nat then Qred (sumQ (cv_na c) (coef c j) / inject_Z (Z.of_nat (cv_na c)))%Q else 0%Q.
Definition caseQ (c : conv) (n : N) : Q := if N.ltb n 2 then 1000 else caseR c (N.to_nat n - 2).
Definition caseOk (ph : phase) : bool :=
  forallb (fun s => let x := qval (fun _ => 0%Q) (caseQ (ph_con ph)) (raw s) in
     rawOk (raw s) && Qle_bool (1 # 1000) x && (match guard s with Free | Low | Low0 => true | _ => Qle_bool x (33 # 100) || (match guard s with Third => false | _ => Qle_bool x (99 # 100) end) end)) (ph_sites ph).
Lemma cases_ok : forallb caseOk phases = true. Proof. vm_compute. reflexivity. Qed.
Lemma eps_small : eps < / 1000.
Proof. unfold eps. apply Rinv_lt_contravar; [|lra]. apply Rmult_lt_0_compat; [lra|apply pow_lt; lra]. Qed.
Lemma sumTo_const n a : sumTo n (fun _ => a) = INR n * a.
Proof. induction n; cbn [sumTo]; [cbn; lra|]. rewrite IHn, S_INR. lra. Qed.
Theorem C14_C15_case : forall ph, In ph phases ->
  let m := fun _ : nat => 1 in 0 < sumTo (ph_na ph) m /\ feasible ph 1000 1000 (fun j => con_r (ph_con ph) j m).
Proof.
  intros ph I m. destruct (wf ph (wck ph I)) as (Ena & Enr & _ & Cc & _).
  assert (N1 : (1 <= cv_na (ph_con ph))%nat) by apply (ck _ Cc).
  assert (S1 : sumTo (cv_na (ph_con ph)) m = INR (cv_na (ph_con ph))) by (unfold m; rewrite sumTo_const; lra).
  assert (P : 0 < sumTo (cv_na (ph_con ph)) m). { rewrite S1. apply lt_0_INR. lia. }
  split; [rewrite <- Ena; exact P|].
  assert (ER : forall j, con_r (ph_con ph) j m = Q2R (caseR (ph_con ph) j)).
  { intros j. unfold caseR. destruct (Nat.ltb_spec j (cv_nr (ph_con ph))) as [L|L].
    - rewrite (con_r_lin _ Cc) by auto. change (total (cv_na (ph_con ph)) m) with (sumTo (cv_na (ph_con ph)) m). rewrite S1.
      rewrite Q2R_red. unfold Qdiv. rewrite Q2R_mult, Q2R_inv, sumQ_ok.
      + unfold Rdiv. f_equal; [apply sumTo_ext; intros; unfold m; lra|]. f_equal. unfold Q2R, inject_Z. cbn. rewrite INR_IZR_INZ. lra.
      + unfold Qeq, inject_Z. cbn. lia.
    - rewrite (con_r_out _ Cc) by auto. symmetry. apply Q2R_0. }
  split; [lra|]. intros s Is.
  pose proof cases_ok as K. rewrite forallb_forall in K. specialize (K ph I). unfold caseOk in K. rewrite forallb_forall in K. specialize (K s Is). cbv zeta in K.
  apply andb_prop in K. destruct K as [K K3]. apply andb_prop in K. destruct K as [K1 K2].
  assert (E : Q2R (qval (fun _ => 0%Q) (caseQ (ph_con ph)) (raw s)) = rawVal (pt 1000 1000 (fun j => con_r (ph_con ph) j m)) (raw s)).
  { apply qval_ok; auto. intros n. unfold caseQ. destruct (small_n n) as [->|[->|H]].
    - cbn. unfold Q2R; cbn; lra.
    - cbn. unfold Q2R; cbn; lra.
    - destruct (N.ltb_spec n 2); [lia|]. rewrite pt_big by auto. now rewrite ER. }
  rewrite <- E. apply Qle_bool_iff in K2. apply Qle_Rle in K2. unfold Q2R at 1 in K2. cbn in K2. pose proof eps_small. unfold clear_of.
  destruct (guard s); try lra; apply orb_prop in K3; destruct K3 as [K3|K3]; try discriminate K3;
    apply Qle_bool_iff in K3; apply Qle_Rle in K3; unfold Q2R at 2 in K3; cbn in K3; split; lra.
Qed.
Theorem C16_case : forall c, In c convs -> 0 < sumTo (cv_na c) (fun _ => 1) /\ (1 <= cv_na c)%nat.
Proof.
  intros c I. pose proof (cck c I) as Cc. assert (N1 : (1 <= cv_na c)%nat) by apply (ck _ Cc). split; auto.
  rewrite sumTo_const. apply Rmult_lt_0_compat; [apply lt_0_INR; lia|lra].
Qed.
Example phases_listed : map ph_file phases = ["feldspar"; "garnet"; "biotite"; "hornblende"; "leucite"; "majorite"; "olivine-sx"; "perovskite"; "ringwoodite"; "wadsleyite"; "wustite"; "ilmenite"; "alloy-liquid"; "alloy-solid"; "kalsilite"]%string /\ length convs = 28%nat.
Proof. split; reflexivity. Qed.
