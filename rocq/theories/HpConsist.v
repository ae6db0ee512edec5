(** Thermodynamic consistency of the Holland-Powell model. *)
From Coq Require Import Reals Lra Lia.
From Verif Require Import RealTac EosSpec EosModel EosProofs HpModel HpProofs.
Local Open Scope R_scope.

Ltac eqR := match goal with |- ?a = ?b => change (@eq R a b) end.

Lemma Zpos K298 t p : hp_ok K298 t p -> pow (1 - 4 * p / (hp_KT K298 t + 4 * p)) (/4) <> 0.
Proof. intro H. apply Rgt_not_eq. apply pow_pos. Qed.

Lemma hp_vol_consistent f a0 K298 t p : hp_ok K298 t p -> volumes_consistent (hp_vol f a0 K298) t p.
Proof.
  intro H. pose proof (Z_derive_t K298 t p H) as DZt. pose proof (Z_derive_p K298 t p H) as DZp.
  pose proof (Zpos K298 t p H) as HZ. pose proof H as (Ht & HK & Hp).
  pose proof (hp_v_dt f a0 t Ht) as D0. pose proof (hp_dv_dt f a0 t Ht) as D1. pose proof (hp_KT_dt K298 t) as D2.
  assert (HD : hp_KT K298 t + 4 * p <> 0) by lra.
  assert (ET : forall sel : thermo -> R, locally t (fun u =>
     (fun u => sel (volN (hp_v f a0 u) (hp_dv f a0 u) (hp_d2v f a0 u) (hp_KT K298 u) (hp_dKT K298)
                      (pow (1 - 4 * p / (hp_KT K298 u + 4 * p)) (/4)) p)) u = sel (hp_vol f a0 K298 u p))).
  { intro sel. generalize (hp_ok_near_t _ _ _ H). apply filter_imp. intros u Hu. cbv beta. rewrite hp_vol_N by exact Hu. reflexivity. }
  assert (EP : forall sel : thermo -> R, locally p (fun v =>
     (fun v => sel (volN (hp_v f a0 t) (hp_dv f a0 t) (hp_d2v f a0 t) (hp_KT K298 t) (hp_dKT K298)
                      (pow (1 - 4 * v / (hp_KT K298 t + 4 * v)) (/4)) v)) v = sel (hp_vol f a0 K298 t v))).
  { intro sel. generalize (hp_ok_near_p _ _ _ H). apply filter_imp. intros u Hu. cbv beta. rewrite hp_vol_N by exact Hu. reflexivity. }
  pose proof (hp_vol_N f a0 K298 t p H) as EN.
  unfold volumes_consistent. csplit.
  - eapply is_derive_ext_loc; [exact (ET tV)|]. rewrite EN.
    apply (volN_V_t (hp_v f a0) (hp_dv f a0) (hp_d2v f a0) (hp_KT K298) (fun u => pow (1 - 4 * p / (hp_KT K298 u + 4 * p)) (/4)) _ t p); assumption.
  - eapply is_derive_ext_loc; [exact (EP tV)|]. rewrite EN.
    apply (volN_V_p (hp_v f a0 t) (hp_dv f a0 t) (hp_d2v f a0 t) (hp_KT K298 t) (hp_dKT K298) (fun v => pow (1 - 4 * v / (hp_KT K298 t + 4 * v)) (/4)) p); assumption.
  - eapply is_derive_ext_loc; [exact (ET tVt)|]. rewrite EN.
    apply (volN_Vt_t (hp_v f a0) (hp_dv f a0) (hp_d2v f a0) (hp_KT K298) (fun u => pow (1 - 4 * p / (hp_KT K298 u + 4 * p)) (/4)) _ t p); assumption.
  - eapply is_derive_ext_loc; [exact (EP tVt)|]. rewrite EN.
    apply (volN_Vt_p (hp_v f a0 t) (hp_dv f a0 t) (hp_d2v f a0 t) (hp_KT K298 t) (hp_dKT K298) (fun v => pow (1 - 4 * v / (hp_KT K298 t + 4 * v)) (/4)) p); assumption.
  - eapply is_derive_ext_loc; [exact (ET tVp)|]. rewrite EN.
    apply (volN_Vp_t (hp_v f a0) (hp_dv f a0) (hp_d2v f a0) (hp_KT K298) (fun u => pow (1 - 4 * p / (hp_KT K298 u + 4 * p)) (/4)) _ t p); assumption.
  - eapply is_derive_ext_loc; [exact (EP tVp)|]. rewrite EN.
    apply (volN_Vp_p (hp_v f a0 t) (hp_dv f a0 t) (hp_d2v f a0 t) (hp_KT K298 t) (hp_dKT K298) (fun v => pow (1 - 4 * v / (hp_KT K298 t + 4 * v)) (/4)) p); assumption.
Qed.

(** ** the pressure integral as a thermodynamic contribution *)
Definition hp_ipart (f a0 K298 t p : R) : thermo :=
  let d1 := hp_dI f a0 K298 t p in let d2 := hp_d2I f a0 K298 t p in let V := hp_vol f a0 K298 t p in
  mkThermo (hp_I f a0 K298 t p) (hp_I f a0 K298 t p - t * d1) (- d1) (- t * d2) (- d2 - t * hp_d3I f a0 K298 t p)
     (tV V) (tVt V) (tVp V) (tVtt V) (tVtp V) (tVpp V).
(** generic: a function G with three T-derivatives gives a consistent energetic part *)
Section Gen.
Context (G G1 G2 : R -> R) (g3 t : R) (Ht : t <> 0).
Context (D0 : is_derive G t (G1 t)) (D1 : is_derive G1 t (G2 t)) (D2 : is_derive G2 t g3).
Lemma gen_S : is_derive (fun t => - G1 t) t (- t * G2 t / t).
Proof. auto_derive; [csplit; try exact I; eexists; eassumption|]. ader. field. exact Ht. Qed.
Lemma gen_H : is_derive (fun t => G t - t * G1 t) t (- t * G2 t).
Proof. auto_derive; [csplit; try exact I; eexists; eassumption|]. ader. field. Qed.
Lemma gen_Cp : is_derive (fun t => - t * G2 t) t (- G2 t - t * g3).
Proof. auto_derive; [csplit; try exact I; eexists; eassumption|]. ader. field. Qed.
End Gen.
Lemma hp_ipart_consistent f a0 K298 t p : hp_ok K298 t p -> thermo_consistent (hp_ipart f a0 K298) t p.
Proof.
  intro H. pose proof (hp_I_dt f a0 _ _ _ H) as D0. pose proof (hp_dI_dt f a0 _ _ _ H) as D1. pose proof (hp_d2I_dt f a0 _ _ _ H) as D2.
  assert (Ht : t <> 0) by (destruct H; lra).
  split; [|split].
  - unfold energies_consistent, hp_ipart. cbn [tG tH tS tCp tdCp]. csplit.
    + rewrite Ropp_involutive. exact D0.
    + ring.
    + exact (gen_S (fun t => hp_dI f a0 K298 t p) (fun t => hp_d2I f a0 K298 t p) t Ht D1).
    + exact (gen_H (fun t => hp_I f a0 K298 t p) (fun t => hp_dI f a0 K298 t p) (fun t => hp_d2I f a0 K298 t p) t D0 D1).
    + exact (gen_Cp (fun t => hp_d2I f a0 K298 t p) _ t D2).
  - exact (hp_vol_consistent f a0 K298 t p H).
  - exact (hp_I_dp f a0 K298 t p H).
Qed.
Lemma consistent_ext F G t p : (forall u v, F u v = G u v) -> thermo_consistent G t p -> thermo_consistent F t p.
Proof.
  intros E ((A1 & A2 & A3 & A4 & A5) & (B1 & B2 & B3 & B4 & B5 & B6) & C1). split; [|split].
  - unfold energies_consistent. rewrite !E. csplit; try assumption; (eapply is_derive_ext; [|eassumption]); intro; cbv beta; rewrite E; reflexivity.
  - unfold volumes_consistent. rewrite !E. csplit; (eapply is_derive_ext; [|eassumption]); intro; cbv beta; rewrite E; reflexivity.
  - unfold volume_is_dGdP. rewrite !E. (eapply is_derive_ext; [|eassumption]); intro; cbv beta; rewrite E; reflexivity.
Qed.
Lemma consistent_loc F G t p : locally t (fun u => F u p = G u p) -> locally p (fun v => F t v = G t v) ->
  thermo_consistent G t p -> thermo_consistent F t p.
Proof.
  intros ET EP ((A1 & A2 & A3 & A4 & A5) & (B1 & B2 & B3 & B4 & B5 & B6) & C1).
  assert (E : F t p = G t p) by exact (locally_singleton _ _ ET).
  assert (ET' : forall sel : thermo -> R, locally t (fun u => sel (G u p) = sel (F u p))) by (intro sel; revert ET; apply filter_imp; intros u ->; reflexivity).
  assert (EP' : forall sel : thermo -> R, locally p (fun v => sel (G t v) = sel (F t v))) by (intro sel; revert EP; apply filter_imp; intros u ->; reflexivity).
  split; [|split].
  - unfold energies_consistent. rewrite !E. csplit; try assumption.
    + eapply is_derive_ext_loc; [exact (ET' tG)|assumption].
    + eapply is_derive_ext_loc; [exact (ET' tS)|assumption].
    + eapply is_derive_ext_loc; [exact (ET' tH)|assumption].
    + eapply is_derive_ext_loc; [exact (ET' tCp)|assumption].
  - unfold volumes_consistent. rewrite !E. csplit.
    + eapply is_derive_ext_loc; [exact (ET' tV)|assumption].
    + eapply is_derive_ext_loc; [exact (EP' tV)|assumption].
    + eapply is_derive_ext_loc; [exact (ET' tVt)|assumption].
    + eapply is_derive_ext_loc; [exact (EP' tVt)|assumption].
    + eapply is_derive_ext_loc; [exact (ET' tVp)|assumption].
    + eapply is_derive_ext_loc; [exact (EP' tVp)|assumption].
  - unfold volume_is_dGdP. rewrite !E. eapply is_derive_ext_loc; [exact (EP' tG)|assumption].
Qed.

Definition hp_sax (c : hp) : cp_model := CP_SAXENA (mkCpSaxena (pa c) (pb c) (pc c) 0 0 (pd c) 0).
Lemma hp_base_split c t p : 0 < t -> hp_base c t p = tplus (solid_ref (ph298 c) (ps298 c) (hp_sax c) t) (hp_ipart (pv298 c) (pa0 c) (pK298 c) t p).
Proof.
  intro Ht. assert (Htr : 0 < tr) by (unfold tr; dec; lra).
  pose proof (sqrt_lt_R0 t Ht). pose proof (sqrt_lt_R0 tr Htr).
  assert (HP : 0 < pow t (3.0/2.0)) by apply pow_pos.
  unfold hp_base, tplus, hp_ipart, hp_sax, solid_ref, saxena_cp, SQUARE, CUBE, QUARTIC.
  cbn [tG tH tS tCp tdCp tV tVt tVp tVtt tVtp tVpp sxa sxb sxc sxd sxe sxg sxh].
  change (Rpower t (3.0/2.0)) with (pow t (3.0/2.0)). set (q := pow t (3.0/2.0)) in *. clearbody q.
  set (i0 := hp_I _ _ _ _ _). set (i1 := hp_dI _ _ _ _ _). set (i2 := hp_d2I _ _ _ _ _). set (i3 := hp_d3I _ _ _ _ _).
  clearbody i0 i1 i2 i3. set (V := hp_vol _ _ _ _ _). clearbody V. set (L := ln (t/tr)). clearbody L.
  set (s1 := sqrt t) in *. set (s2 := sqrt tr) in *. clearbody s1 s2. generalize dependent tr. intros tr' Htr. dec.
  f_equal; field; csplit; lra.
Qed.
Lemma hp_base_consistent c t p : hp_ok (pK298 c) t p -> thermo_consistent (hp_base c) t p.
Proof.
  intro H. pose proof H as (Ht & _).
  apply consistent_loc with (G := fun t p => tplus (solid_ref (ph298 c) (ps298 c) (hp_sax c) t) (hp_ipart (pv298 c) (pa0 c) (pK298 c) t p)).
  - exists (mkposreal t Ht). intros u Hu. change (Rabs (u - t) < t) in Hu. apply Rabs_def2 in Hu. apply hp_base_split. lra.
  - exists (mkposreal t Ht). intros v _. apply hp_base_split. exact Ht.
  - apply consistent_plus; [apply solid_ref_consistent; [exact Ht|exact I]|apply hp_ipart_consistent; exact H].
Qed.

(** ** Landau terms *)
(** normal form over Q = sqrt (1 - t/Tc): energies, V, dV/dT, d2V/dT2 of -2/3 Smax Tc Q^3 *)
Section LandauQ.
Context (c : hp) (t p : R).
Let Tc := hp_Tc c p.
Let Q := sqrt (1 - t / Tc).
Let S := pSmax c.
Let W := pVmax c / pSmax c.
Context (HTc : 0 < Tc) (Hlt : t < Tc).
Lemma Qpos : 0 < Q.
Proof. apply sqrt_lt_R0. replace (1 - t / Tc) with ((Tc - t) / Tc) by (field; lra). apply Rdiv_lt_0_compat; lra. Qed.
Lemma Qsq : 1 - t / Tc = Q * Q.
Proof.
  symmetry. apply sqrt_sqrt. left. replace (1 - t / Tc) with ((Tc - t) / Tc) by (field; lra). apply Rdiv_lt_0_compat; lra.
Qed.
Lemma tQ : t = Tc * (1 - Q * Q).
Proof. rewrite <- Qsq. field. lra. Qed.
Lemma powQ3 : pow (1 - t / Tc) (3/2) = Q ^ 3.
Proof.
  pose proof Qpos. assert (H0 : 0 < 1 - t / Tc) by (rewrite Qsq; apply Rmult_lt_0_compat; assumption).
  unfold pow. replace (3/2) with (1 + /2) by field. rewrite Rpower_plus, Rpower_1, Rpower_sqrt by assumption. fold Q. rewrite Qsq. ring.
Qed.
Lemma powQ5 : pow (1 - t / Tc) (5/2) = Q ^ 5.
Proof.
  pose proof Qpos. assert (H0 : 0 < 1 - t / Tc) by (rewrite Qsq; apply Rmult_lt_0_compat; assumption).
  unfold pow. replace (5/2) with (1 + 1 + /2) by field. rewrite !Rpower_plus, Rpower_1, Rpower_sqrt by assumption. fold Q. rewrite Qsq. ring.
Qed.
Lemma powQ1 : pow (1 - t / Tc) (1/2) = Q.
Proof.
  pose proof Qpos. assert (H0 : 0 < 1 - t / Tc) by (rewrite Qsq; apply Rmult_lt_0_compat; assumption).
  unfold pow. replace (1/2) with (/2) by field. rewrite Rpower_sqrt by assumption. reflexivity.
Qed.
Definition Q298 : R := sqrt (1 - tr / pTc0 c).
Definition land_f : R := pVmax c * Q298.
Definition land_h : R := pSmax c * pTc0 c * (Q298 - Q298 * Q298 * Q298 / 3).
Definition land_s : R := pSmax c * Q298.

Lemma landau_G : tG (hp_landau c t p) = land_h - t * land_s + hp_I land_f (pa0 c) (pK298 c) t p - 2/3 * S * Tc * Q ^ 3.
Proof.
  pose proof Qpos as HQ. unfold hp_landau, land_h, land_s, land_f, Q298. cbn [tG]. fold Tc. dec.
  replace (10 * / 10) with 1 by field. replace (30 * / 10) with 3 by field. fold Q.
  set (q0 := sqrt (1 - tr / pTc0 c)). generalize (hp_I (pVmax c * q0) (pa0 c) (pK298 c) t p). intro i. fold S.
  replace (t - Tc) with (- Tc * (Q * Q)) by (rewrite <- Qsq; field; lra). field.
Qed.
Context (HS : pSmax c <> 0).
Ltac norm := unfold hp_landau; cbn [tG tH tS tCp tdCp tV tVt tVp tVtt tVtp tVpp]; fold Tc;
  fold S; unfold land_h, land_s, land_f, Q298; dec;
  replace (30 * / 10 / (20 * / 10)) with (3/2) by field; replace (50 * / 10 / (20 * / 10)) with (5/2) by field;
  replace (10 * / 10 / (20 * / 10)) with (1/2) by field;
  replace (10 * / 10) with 1 by field; replace (30 * / 10) with 3 by field; replace (20 * / 10) with 2 by field;
  replace (40 * / 10) with 4 by field; replace (60 * / 10) with 6 by field;
  replace (-1 * / 10 * 10) with (-1) by field; replace (-10 * / 10) with (-1) by field; replace (-30 * / 10) with (-3) by field;
  rewrite ?powQ3, ?powQ5, ?powQ1; fold Q; fold S; set (q0 := sqrt (1 - tr / pTc0 c)); change (pVmax c / S) with W.
Lemma landau_H : tH (hp_landau c t p) = tG (hp_landau c t p) + t * tS (hp_landau c t p).
Proof. unfold hp_landau. cbn [tG tH tS]. ring. Qed.
Lemma landau_S : tS (hp_landau c t p) = land_s - hp_dI land_f (pa0 c) (pK298 c) t p - S * Q.
Proof.
  pose proof Qpos as HQ. norm. generalize (hp_dI (pVmax c * q0) (pa0 c) (pK298 c) t p). intro i.
  replace (t - Tc) with (- Tc * (Q * Q)) by (rewrite <- Qsq; field; lra). field. csplit; lra.
Qed.
Lemma landau_Cp : tCp (hp_landau c t p) = - t * hp_d2I land_f (pa0 c) (pK298 c) t p + t * (S / (2 * Q * Tc)).
Proof.
  pose proof Qpos as HQ. norm. generalize (hp_d2I (pVmax c * q0) (pa0 c) (pK298 c) t p). intro i.
  replace (t - Tc) with (- Tc * (Q * Q)) by (rewrite <- Qsq; field; lra). field. csplit; lra.
Qed.
Lemma landau_dCp : tdCp (hp_landau c t p) = - hp_d2I land_f (pa0 c) (pK298 c) t p - t * hp_d3I land_f (pa0 c) (pK298 c) t p
   + S / (2 * Q * Tc) + t * (S / (4 * Q ^ 3 * Tc * Tc)).
Proof.
  pose proof Qpos as HQ. norm. generalize (hp_d2I (pVmax c * q0) (pa0 c) (pK298 c) t p). generalize (hp_d3I (pVmax c * q0) (pa0 c) (pK298 c) t p). intros i j.
  replace (t - Tc) with (- Tc * (Q * Q)) by (rewrite <- Qsq; field; lra). field. csplit; lra.
Qed.
Lemma landau_V : tV (hp_landau c t p) = tV (hp_vol land_f (pa0 c) (pK298 c) t p) + S * W * (Q ^ 3 / 3 - Q).
Proof.
  pose proof Qpos as HQ. norm. generalize (tV (hp_vol (pVmax c * q0) (pa0 c) (pK298 c) t p)). intros i.
  replace (t - Tc) with (- Tc * (Q * Q)) by (rewrite <- Qsq; field; lra). field. csplit; lra.
Qed.
Lemma landau_Vt : tVt (hp_landau c t p) = tVt (hp_vol land_f (pa0 c) (pK298 c) t p) + S * W * (1 - Q * Q) / (2 * Q * Tc).
Proof.
  pose proof Qpos as HQ. norm. generalize (tVt (hp_vol (pVmax c * q0) (pa0 c) (pK298 c) t p)). intros i.
  replace (t - Tc) with (- Tc * (Q * Q)) by (rewrite <- Qsq; field; lra).
  rewrite tQ. field. csplit; lra.
Qed.
Lemma landau_Vtt : tVtt (hp_landau c t p) = tVtt (hp_vol land_f (pa0 c) (pK298 c) t p) + S * W * (1 + Q * Q) / (4 * Q ^ 3 * Tc * Tc).
Proof.
  pose proof Qpos as HQ. norm. generalize (tVtt (hp_vol (pVmax c * q0) (pa0 c) (pK298 c) t p)). intros i.
  replace (t - Tc) with (- Tc * (Q * Q)) by (rewrite <- Qsq; field; lra).
  rewrite tQ. field. csplit; lra.
Qed.
(** what the code returns for dV/dP; the true value is - S W^2 (1-Q^2)^2/(2 Q Tc) *)
Lemma landau_Vp : tVp (hp_landau c t p) = tVp (hp_vol land_f (pa0 c) (pK298 c) t p)
  + S * W * ((28 * W * Q ^ 4 + 8 * W * Q ^ 2 - 36 * W) / (48 * Tc * Q) + (12 - 12 * Q ^ 2 - 24 * Q ^ 2 / Tc) / (48 * Q)).
Proof.
  pose proof Qpos as HQ. norm. generalize (tVp (hp_vol (pVmax c * q0) (pa0 c) (pK298 c) t p)). intros i.
  replace (t - Tc) with (- Tc * (Q * Q)) by (rewrite <- Qsq; field; lra).
  rewrite tQ. field. csplit; lra.
Qed.
Lemma landau_W0 : W = 0 -> tVp (hp_landau c t p) = tVp (hp_vol land_f (pa0 c) (pK298 c) t p) /\
  tVtp (hp_landau c t p) = tVtp (hp_vol land_f (pa0 c) (pK298 c) t p) /\
  tVpp (hp_landau c t p) = tVpp (hp_vol land_f (pa0 c) (pK298 c) t p).
Proof.
  intro H0. pose proof Qpos as HQ. norm. generalize (hp_vol (pVmax c * q0) (pa0 c) (pK298 c) t p). intros V. rewrite H0.
  csplit; field; csplit; lra.
Qed.
End LandauQ.

(** what the caller relies on for a Landau phase, whatever Vmax is *)
Section LandauDer.
Context (c : hp) (t p : R) (H : hp_ok (pK298 c) t p) (HTc : 0 < hp_Tc c p) (Hlt : t < hp_Tc c p) (HS : pSmax c <> 0).
Lemma Q_dt : is_derive (fun u => sqrt (1 - u / hp_Tc c p)) t (- / (2 * sqrt (1 - t / hp_Tc c p) * hp_Tc c p)).
Proof.
  pose proof (Qpos c t p HTc Hlt) as HQ. pose proof (Qsq c t p HTc Hlt) as E. auto_derive.
  - csplit; try exact I. apply Rlt_gt. replace (1 + - (t * / hp_Tc c p)) with (1 - t / hp_Tc c p) by (unfold Rdiv; ring). rewrite E. apply Rmult_lt_0_compat; exact HQ.
  - replace (1 + - (t * / hp_Tc c p)) with (1 - t / hp_Tc c p) by (unfold Rdiv; ring). field. lra.
Qed.
Lemma Tc_dp : is_derive (hp_Tc c) p (pVmax c / pSmax c).
Proof. unfold hp_Tc. auto_derive; [exact I|]. field. exact HS. Qed.
Lemma Q_dp : is_derive (fun v => sqrt (1 - t / hp_Tc c v)) p (t * (pVmax c / pSmax c) / (2 * sqrt (1 - t / hp_Tc c p) * hp_Tc c p * hp_Tc c p)).
Proof.
  pose proof (Qpos c t p HTc Hlt) as HQ. pose proof (Qsq c t p HTc Hlt) as E. pose proof Tc_dp as D. auto_derive.
  - csplit; try exact I; [eexists; exact D|lra|]. replace (1 + - (t * / hp_Tc c p)) with (1 - t / hp_Tc c p) by (unfold Rdiv; ring). rewrite E. apply Rmult_lt_0_compat; exact HQ.
  - ader. replace (1 + - (t * / hp_Tc c p)) with (1 - t / hp_Tc c p) by (unfold Rdiv; ring). field. csplit; lra.
Qed.
Lemma lan_near_t : locally t (fun u => u < hp_Tc c p).
Proof. assert (E : 0 < hp_Tc c p - t) by lra. exists (mkposreal _ E). intros u Hu. change (Rabs (u - t) < hp_Tc c p - t) in Hu. apply Rabs_def2 in Hu. lra. Qed.
Lemma lan_near_p : locally p (fun v => 0 < hp_Tc c v /\ t < hp_Tc c v).
Proof.
  assert (C : continuous (hp_Tc c) p) by (apply (ex_derive_continuous (hp_Tc c)); eexists; exact Tc_dp).
  assert (A : forall m, m < hp_Tc c p -> locally p (fun v => m < hp_Tc c v)).
  { intros m Hm. assert (E : 0 < hp_Tc c p - m) by lra. apply C. exists (mkposreal _ E). intros y Hy.
    change (Rabs (y - hp_Tc c p) < hp_Tc c p - m) in Hy. apply Rabs_def2 in Hy. lra. }
  exact (filter_and _ _ (A 0 HTc) (A t Hlt)).
Qed.
End LandauDer.

Definition lanQ (c : hp) (t p : R) : thermo :=
  let Tc := hp_Tc c p in let Q := sqrt (1 - t / Tc) in let S := pSmax c in let W := pVmax c / pSmax c in
  let V := hp_vol (land_f c) (pa0 c) (pK298 c) t p in
  mkThermo (- (2/3) * S * Tc * Q ^ 3) (- (2/3) * S * Tc * Q ^ 3 - t * (S * Q)) (- (S * Q)) (t * (S / (2 * Q * Tc)))
    (S / (2 * Q * Tc) + t * (S / (4 * Q ^ 3 * Tc * Tc)))
    (S * W * (Q ^ 3 / 3 - Q)) (S * W * (1 - Q * Q) / (2 * Q * Tc)) (tVp (hp_landau c t p) - tVp V)
    (S * W * (1 + Q * Q) / (4 * Q ^ 3 * Tc * Tc)) (tVtp (hp_landau c t p) - tVtp V) (tVpp (hp_landau c t p) - tVpp V).
Lemma thermo_eta (a b : thermo) : tG a = tG b -> tH a = tH b -> tS a = tS b -> tCp a = tCp b -> tdCp a = tdCp b ->
  tV a = tV b -> tVt a = tVt b -> tVp a = tVp b -> tVtt a = tVtt b -> tVtp a = tVtp b -> tVpp a = tVpp b -> a = b.
Proof. destruct a, b; cbn; intros; subst; reflexivity. Qed.
Lemma landau_split c t p : 0 < hp_Tc c p -> t < hp_Tc c p -> pSmax c <> 0 ->
  hp_landau c t p = tplus (taj (land_h c) (land_s c) t) (tplus (hp_ipart (land_f c) (pa0 c) (pK298 c) t p) (lanQ c t p)).
Proof.
  intros HTc Hlt HS. pose proof (landau_G c t p HTc Hlt) as EG. pose proof (landau_S c t p HTc Hlt) as ES.
  pose proof (landau_H c t p) as EH.
  apply thermo_eta; unfold tplus, taj, hp_ipart, lanQ; cbn [tG tH tS tCp tdCp tV tVt tVp tVtt tVtp tVpp].
  - rewrite EG. field.
  - rewrite EH, EG, ES. field.
  - rewrite ES. ring.
  - rewrite (landau_Cp c t p HTc Hlt). ring.
  - rewrite (landau_dCp c t p HTc Hlt). ring.
  - rewrite (landau_V c t p HTc Hlt). ring.
  - rewrite (landau_Vt c t p HTc Hlt). ring.
  - ring.
  - rewrite (landau_Vtt c t p HTc Hlt). ring.
  - ring.
  - ring.
Qed.
Section LQ.
Context (S Tc W t : R) (Q : R -> R) (HQ : Q t <> 0) (HT : Tc <> 0).
Context (D : is_derive Q t (- / (2 * Q t * Tc))).
Context (E : t = Tc * (1 - Q t * Q t)).
Ltac go := auto_derive; [csplit; try exact I; try solve [eexists; exact D];
   repeat (apply Rmult_integral_contrapositive_currified; try assumption; try lra) |ader; (field || (rewrite E at 1; field)); csplit; assumption].
Lemma lq1 : is_derive (fun u => - (2/3) * S * Tc * Q u ^ 3) t (- - (S * Q t)). Proof. go. Qed.
Lemma lq2 : t <> 0 -> is_derive (fun u => - (S * Q u)) t (t * (S / (2 * Q t * Tc)) / t).
Proof. intro. auto_derive; [csplit; try exact I; try solve [eexists; exact D]|]. ader. field. csplit; assumption. Qed.
Lemma lq3 : is_derive (fun u => - (2/3) * S * Tc * Q u ^ 3 - u * (S * Q u)) t (t * (S / (2 * Q t * Tc))).
Proof. auto_derive; [csplit; try exact I; try solve [eexists; exact D]|]. ader. field. csplit; assumption. Qed.
Lemma lq4 : is_derive (fun u => u * (S / (2 * Q u * Tc))) t (S / (2 * Q t * Tc) + t * (S / (4 * Q t ^ 3 * Tc * Tc))). Proof. go. Qed.
Lemma lq5 : is_derive (fun u => S * W * (Q u ^ 3 / 3 - Q u)) t (S * W * (1 - Q t * Q t) / (2 * Q t * Tc)). Proof. go. Qed.
Lemma lq6 : is_derive (fun u => S * W * (1 - Q u * Q u) / (2 * Q u * Tc)) t (S * W * (1 + Q t * Q t) / (4 * Q t ^ 3 * Tc * Tc)). Proof. go. Qed.
End LQ.
Lemma lq7 (S W t p : R) (T Q : R -> R) : Q p <> 0 -> T p <> 0 -> is_derive T p W -> is_derive Q p (t * W / (2 * Q p * T p * T p)) ->
  t = T p * (1 - Q p * Q p) -> is_derive (fun v => - (2/3) * S * T v * Q v ^ 3) p (S * W * (Q p ^ 3 / 3 - Q p)).
Proof.
  intros HQ HT DT D E. auto_derive; [csplit; try exact I; eexists; eassumption|]. ader. rewrite E at 1. field. csplit; assumption.
Qed.
(** the Landau term alone, any Vmax *)
Lemma lanQ_main c t p : 0 < t -> 0 < hp_Tc c p -> t < hp_Tc c p -> pSmax c <> 0 ->
  energies_consistent (lanQ c) t p /\ volume_is_dGdP (lanQ c) t p
  /\ is_derive (fun t => tV (lanQ c t p)) t (tVt (lanQ c t p)) /\ is_derive (fun t => tVt (lanQ c t p)) t (tVtt (lanQ c t p)).
Proof.
  intros Ht HTc Hlt HS. pose proof (Qpos c t p HTc Hlt) as HQ. pose proof (tQ c t p HTc Hlt) as E.
  pose proof (Q_dt c t p HTc Hlt) as D. pose proof (Q_dp c t p HTc Hlt HS) as DP. pose proof (Tc_dp c p HS) as DT.
  assert (Q0 : sqrt (1 - t / hp_Tc c p) <> 0) by lra. assert (T0 : hp_Tc c p <> 0) by lra. assert (t0 : t <> 0) by lra.
  unfold energies_consistent, volume_is_dGdP, lanQ. cbn [tG tH tS tCp tdCp tV tVt tVp tVtt tVtp tVpp]. csplit.
  - exact (lq1 _ _ t (fun u => sqrt (1 - u / hp_Tc c p)) Q0 T0 D).
  - ring.
  - exact (lq2 _ _ t (fun u => sqrt (1 - u / hp_Tc c p)) Q0 T0 D t0).
  - exact (lq3 _ _ t (fun u => sqrt (1 - u / hp_Tc c p)) Q0 T0 D).
  - exact (lq4 _ _ t (fun u => sqrt (1 - u / hp_Tc c p)) Q0 T0 D).
  - exact (lq7 _ _ t p (hp_Tc c) (fun v => sqrt (1 - t / hp_Tc c v)) Q0 T0 DT DP E).
  - exact (lq5 _ _ _ t (fun u => sqrt (1 - u / hp_Tc c p)) Q0 T0 D).
  - exact (lq6 _ _ _ t (fun u => sqrt (1 - u / hp_Tc c p)) Q0 T0 D).
Qed.

Lemma taj_consistent A B t p : t <> 0 -> thermo_consistent (fun t _ => taj A B t) t p.
Proof.
  intro Ht. unfold taj. split; [|split]; unfold energies_consistent, volumes_consistent, volume_is_dGdP; cbn [tG tH tS tCp tdCp tV tVt tVp tVtt tVtp tVpp];
  csplit; try (auto_derive; [exact I|field; try exact Ht]). ring.
Qed.

(** the smooth points of HPproperties *)
Definition hp_smooth (c : hp) (t p : R) : Prop := 0 < pTc0 c -> 0 < pSmax c -> t <> hp_Tc c p.
Definition hp_below (c : hp) (t p : R) : Prop := 0 < pTc0 c /\ 0 < pSmax c /\ t < hp_Tc c p.
Definition hp_low (c : hp) (t p : R) : thermo :=
  tplus (hp_base c t p) (tplus (taj (land_h c) (land_s c) t) (tplus (hp_ipart (land_f c) (pa0 c) (pK298 c) t p) (lanQ c t p))).
Lemma HP_low c t p : 0 < t -> hp_below c t p -> HPproperties c t p = hp_low c t p.
Proof.
  intros Ht (H1 & H2 & H3). unfold HPproperties, hp_low. destruct (Rlt_dec 0 (pTc0 c)); [|contradiction].
  destruct (Rlt_dec 0 (pSmax c)); [|contradiction]. destruct (Rlt_dec t (hp_Tc c p)); [|contradiction].
  rewrite landau_split by lra. reflexivity.
Qed.
Lemma HP_high c t p : ~ hp_below c t p -> HPproperties c t p = hp_base c t p.
Proof.
  intros H. unfold HPproperties, hp_below in *. destruct (Rlt_dec 0 (pTc0 c)); [|reflexivity].
  destruct (Rlt_dec 0 (pSmax c)); [|reflexivity]. destruct (Rlt_dec t (hp_Tc c p)); [|reflexivity]. exfalso; apply H; tauto.
Qed.
Lemma near_gt (f : R -> R) x m : continuous f x -> m < f x -> locally x (fun y => m < f y).
Proof.
  intros C Hm. assert (E : 0 < f x - m) by lra. apply (C (fun z => m < z)). exists (mkposreal _ E). intros y Hy.
  change (Rabs (y - f x) < f x - m) in Hy. apply Rabs_def2 in Hy. lra.
Qed.
Lemma near_lt (f : R -> R) x m : continuous f x -> f x < m -> locally x (fun y => f y < m).
Proof.
  intros C Hm. assert (E : 0 < m - f x) by lra. apply (C (fun z => z < m)). exists (mkposreal _ E). intros y Hy.
  change (Rabs (y - f x) < m - f x) in Hy. apply Rabs_def2 in Hy. lra.
Qed.
Lemma HP_loc c t p : 0 < t -> hp_smooth c t p ->
  (hp_below c t p /\ locally t (fun u => HPproperties c u p = hp_low c u p) /\ locally p (fun v => HPproperties c t v = hp_low c t v)) \/
  (locally t (fun u => HPproperties c u p = hp_base c u p) /\ locally p (fun v => HPproperties c t v = hp_base c t v)).
Proof.
  intros Ht Hs. destruct (Rlt_dec 0 (pTc0 c)) as [H1|H1]; [|right].
  2:{ split; exists (mkposreal 1 Rlt_0_1); intros y _; apply HP_high; intros (A & _); contradiction. }
  destruct (Rlt_dec 0 (pSmax c)) as [H2|H2]; [|right].
  2:{ split; exists (mkposreal 1 Rlt_0_1); intros y _; apply HP_high; intros (_ & A & _); contradiction. }
  assert (HS : pSmax c <> 0) by lra. specialize (Hs H1 H2).
  assert (C : continuous (hp_Tc c) p) by (apply (ex_derive_continuous (hp_Tc c)); eexists; exact (Tc_dp c p HS)).
  destruct (Rlt_dec t (hp_Tc c p)) as [H3|H3]; [left; split; [unfold hp_below; tauto|]|right]; split.
  - generalize (filter_and _ _ (near_gt (fun u => u) t 0 (continuous_id t) Ht) (near_lt (fun u => u) t _ (continuous_id t) H3)).
    apply filter_imp. intros u (U1 & U2). apply HP_low; [exact U1|]. unfold hp_below; csplit; lra.
  - generalize (near_gt _ p t C H3). apply filter_imp. intros v Hv. apply HP_low; [exact Ht|]. unfold hp_below; csplit; lra.
  - assert (H4 : hp_Tc c p < t) by lra. generalize (near_gt (fun u => u) t _ (continuous_id t) H4). apply filter_imp. intros u Hu.
    apply HP_high. intros (_ & _ & A). lra.
  - assert (H4 : hp_Tc c p < t) by lra. generalize (near_lt _ p t C H4). apply filter_imp. intros v Hv.
    apply HP_high. intros (_ & _ & A). lra.
Qed.

(** everything is consistent when the Landau volume is zero, as in all calls made by gibbs() *)
Lemma lanQ_W0 c t p : 0 < t -> 0 < hp_Tc c p -> t < hp_Tc c p -> 0 < pSmax c -> pVmax c = 0 -> thermo_consistent (lanQ c) t p.
Proof.
  intros Ht HTc Hlt HS HV. destruct (lanQ_main c t p Ht HTc Hlt) as (A & B & C1 & C2); [lra|].
  assert (W0 : pVmax c / pSmax c = 0) by (rewrite HV; field; lra).
  assert (TC : forall v, hp_Tc c v = pTc0 c) by (intro v; unfold hp_Tc; rewrite HV; field; lra).
  split; [exact A|split; [|exact B]].
  assert (Z : forall u v, 0 < hp_Tc c v -> u < hp_Tc c v ->
     tV (lanQ c u v) = 0 /\ tVt (lanQ c u v) = 0 /\ tVp (lanQ c u v) = 0 /\ tVtp (lanQ c u v) = 0 /\ tVpp (lanQ c u v) = 0).
  { intros u v U1 U2. destruct (landau_W0 c u v U1 U2 W0) as (L1 & L2 & L3). unfold lanQ. cbn [tV tVt tVp tVtp tVpp].
    rewrite L1, L2, L3, W0. csplit; try ring. unfold Rdiv. ring. }
  assert (N : locally t (fun u => u < hp_Tc c p)) by exact (near_lt (fun u => u) t _ (continuous_id t) Hlt).
  destruct (Z t p HTc Hlt) as (Z1 & Z2 & Z3 & Z4 & Z5).
  assert (K0 : forall (h : R -> R) x, locally x (fun y => 0 = h y) -> is_derive h x 0).
  { intros h x L. apply is_derive_ext_loc with (fun _ => 0); [exact L|]. auto_derive; [exact I|ring]. }
  assert (NP : forall v, 0 < hp_Tc c v /\ t < hp_Tc c v) by (intro v; rewrite TC; rewrite TC in HTc, Hlt; lra).
  unfold volumes_consistent. csplit; try assumption; rewrite ?Z3, ?Z4, ?Z5; apply K0.
  - apply filter_forall. intro v. destruct (NP v). symmetry. apply Z; assumption.
  - apply filter_forall. intro v. destruct (NP v). symmetry. apply Z; assumption.
  - revert N. apply filter_imp. intros u Hu. symmetry. apply Z; assumption.
  - apply filter_forall. intro v. destruct (NP v). symmetry. apply Z; assumption.
Qed.

Theorem HP_consistent c t p : hp_ok (pK298 c) t p -> pVmax c = 0 -> hp_smooth c t p -> thermo_consistent (HPproperties c) t p.
Proof.
  intros H HV Hs. pose proof H as (Ht & _). destruct (HP_loc c t p Ht Hs) as [((B1 & B2 & B3) & ET & EP)|(ET & EP)].
  - apply consistent_loc with (G := hp_low c); [exact ET|exact EP|]. unfold hp_low.
    apply consistent_plus; [exact (hp_base_consistent c t p H)|].
    apply consistent_plus; [apply taj_consistent; lra|].
    apply consistent_plus; [apply hp_ipart_consistent; exact H|]. apply lanQ_W0; try assumption. lra.
  - apply consistent_loc with (G := hp_base c); [exact ET|exact EP|]. exact (hp_base_consistent c t p H).
Qed.

(** with a Landau volume: energies, V = dG/dP and the T-derivatives of V *)
Theorem HP_main c t p : hp_ok (pK298 c) t p -> hp_smooth c t p ->
  energies_consistent (HPproperties c) t p /\ volume_is_dGdP (HPproperties c) t p
  /\ is_derive (fun t => tV (HPproperties c t p)) t (tVt (HPproperties c t p))
  /\ is_derive (fun t => tVt (HPproperties c t p)) t (tVtt (HPproperties c t p)).
Proof.
  intros H Hs. pose proof H as (Ht & _). destruct (HP_loc c t p Ht Hs) as [((B1 & B2 & B3) & ET & EP)|(ET & EP)].
  - destruct (hp_base_consistent c t p H) as (A1 & (A2 & _ & A3 & _) & A4).
    assert (Ht0 : t <> 0) by lra.
    destruct (taj_consistent (land_h c) (land_s c) t p Ht0) as (J1 & (J2 & _ & J3 & _) & J4).
    destruct (hp_ipart_consistent (land_f c) (pa0 c) (pK298 c) t p H) as (I1 & (I2 & _ & I3 & _) & I4).
    destruct (lanQ_main c t p Ht) as (L1 & L4 & L2 & L3); try lra.
    assert (E : HPproperties c t p = hp_low c t p) by (apply (locally_singleton _ _ ET)).
    csplit.
    + destruct ET as [eps He]. apply energies_near with (G := hp_low c) (eps := eps); [exact He|].
      apply energies_plus; [exact A1|]. apply energies_plus; [exact J1|]. apply energies_plus; [exact I1|exact L1].
    + unfold volume_is_dGdP. rewrite E. apply is_derive_ext_loc with (fun v => tG (hp_low c t v)).
      { revert EP. apply filter_imp. intros v ->. reflexivity. }
      unfold hp_low, tplus; cbn [tG tV]. apply is_derive_add; [exact A4|]. apply is_derive_add; [exact J4|]. apply is_derive_add; [exact I4|exact L4].
    + rewrite E. apply is_derive_ext_loc with (fun v => tV (hp_low c v p)).
      { revert ET. apply filter_imp. intros v ->. reflexivity. }
      unfold hp_low, tplus; cbn [tVt tV]. apply is_derive_add; [exact A2|]. apply is_derive_add; [exact J2|]. apply is_derive_add; [exact I2|exact L2].
    + rewrite E. apply is_derive_ext_loc with (fun v => tVt (hp_low c v p)).
      { revert ET. apply filter_imp. intros v ->. reflexivity. }
      unfold hp_low, tplus; cbn [tVt tVtt]. apply is_derive_add; [exact A3|]. apply is_derive_add; [exact J3|]. apply is_derive_add; [exact I3|exact L3].
  - assert (T : thermo_consistent (HPproperties c) t p).
    { apply consistent_loc with (G := hp_base c); [exact ET|exact EP|]. exact (hp_base_consistent c t p H). }
    destruct T as (A1 & (A2 & _ & A3 & _) & A4). csplit; assumption.
Qed.

(** ** the two biotite end members *)
Lemma scale_consistent k F t p : thermo_consistent F t p -> thermo_consistent (fun t p => tscale k (F t p)) t p.
Proof.
  assert (D : forall (f : R -> R) x l, is_derive f x l -> is_derive (fun y => k * f y) x (k * l)).
  { intros f x l Hd. exact (is_derive_scal f x k l Hd). }
  intros ((A1 & A2 & A3 & A4 & A5) & (B1 & B2 & B3 & B4 & B5 & B6) & C1).
  split; [|split]; unfold energies_consistent, volumes_consistent, volume_is_dGdP, tscale; cbn [tG tH tS tCp tdCp tV tVt tVp tVtt tVtp tVpp].
  - csplit.
    + apply is_derive_eq with (k * - tS (F t p)); [apply D; exact A1|ring].
    + rewrite A2. ring.
    + apply is_derive_eq with (k * (tCp (F t p) / t)); [apply D; exact A3|unfold Rdiv; ring].
    + apply D; exact A4.
    + apply D; exact A5.
  - csplit; apply D; assumption.
  - apply D; assumption.
Qed.
Definition fbi_ok t p := hp_ok (pK298 hpEAST) t p /\ hp_ok (pK298 hpCOR) t p /\ hp_ok (pK298 hpHEM) t p.
Definition tbi_ok t p := hp_ok (pK298 hpPHL) t p /\ hp_ok (pK298 hpBRU) t p /\ hp_ok (pK298 hpRUT) t p.
Lemma no_landau c t p : pTc0 c = 0.0 -> hp_smooth c t p.
Proof. intros E H. rewrite E in H. dec. lra. Qed.
Lemma hem_Tc p : hp_Tc hpHEM p = 955.
Proof. unfold hp_Tc, hpHEM. cbn [pTc0 pVmax pSmax]. dec. field. Qed.
Lemma z00 : 0.0 = 0. Proof. dec; lra. Qed.
Theorem fbiTaj_consistent t p : fbi_ok t p -> t <> 955 -> thermo_consistent fbiTaj t p.
Proof.
  intros (H1 & H2 & H3) Hne. pose proof H1 as (Ht & _). unfold fbiTaj. apply consistent_plus; [|apply taj_consistent; lra].
  apply consistent_plus; [apply consistent_plus|].
  - apply HP_consistent; [exact H1|exact z00|apply no_landau; reflexivity].
  - apply scale_consistent. apply HP_consistent; [exact H2|exact z00|apply no_landau; reflexivity].
  - apply scale_consistent. apply HP_consistent; [exact H3|exact z00|]. intros _ _. rewrite hem_Tc. exact Hne.
Qed.
Theorem tbiTaj_consistent t p : tbi_ok t p -> thermo_consistent tbiTaj t p.
Proof.
  intros (H1 & H2 & H3). pose proof H1 as (Ht & _). unfold tbiTaj. apply consistent_plus; [|apply taj_consistent; lra].
  apply consistent_plus; [apply consistent_plus|].
  - apply HP_consistent; [exact H1|exact z00|apply no_landau; reflexivity].
  - apply scale_consistent. apply HP_consistent; [exact H2|exact z00|apply no_landau; reflexivity].
  - apply HP_consistent; [exact H3|exact z00|apply no_landau; reflexivity].
Qed.
(** the permissible region: all T up to 6000 K, all P >= 0 *)
Lemma hp_ok_region K t p : 0 < K -> 0 < t -> t <= 6000 -> 0 <= p -> hp_ok K t p.
Proof.
  intros HK H1 H2 H3. assert (A : 0 < hp_KT K t).
  { unfold hp_KT, tr. dec. apply Rmult_lt_0_compat; lra. }
  unfold hp_ok. csplit; lra.
Qed.

(** ** the Landau dV/dP is wrong when Vmax <> 0 *)
Lemma HP_low_dVdP c t p : hp_ok (pK298 c) t p -> hp_below c t p ->
  let Q := sqrt (1 - t / hp_Tc c p) in let S := pSmax c in let W := pVmax c / S in
  is_derive (fun p => tV (HPproperties c t p)) p
    (tVp (HPproperties c t p) - (S * W * ((28 * W * Q ^ 4 + 8 * W * Q ^ 2 - 36 * W) / (48 * hp_Tc c p * Q) + (12 - 12 * Q ^ 2 - 24 * Q ^ 2 / hp_Tc c p) / (48 * Q))
       + S * W * W * (1 - Q * Q) * (1 - Q * Q) / (2 * Q * hp_Tc c p))).
Proof.
  intros H HB Q S W. pose proof HB as (B1 & B2 & B3). pose proof H as (Ht & _).
  assert (HTc : 0 < hp_Tc c p) by lra. assert (HS : pSmax c <> 0) by lra.
  assert (C : continuous (hp_Tc c) p) by (apply (ex_derive_continuous (hp_Tc c)); eexists; exact (Tc_dp c p HS)).
  assert (EP : locally p (fun v => HPproperties c t v = hp_low c t v)).
  { generalize (near_gt _ p t C B3). apply filter_imp. intros v Hv. apply HP_low; [exact Ht|]. unfold hp_below; csplit; lra. }
  pose proof (Qpos c t p HTc B3) as HQ. pose proof (tQ c t p HTc B3) as E.
  pose proof (Q_dp c t p HTc B3 HS) as DQ.
  rewrite (HP_low c t p Ht HB).
  apply is_derive_ext_loc with (fun v => tV (hp_low c t v)).
  { revert EP. apply filter_imp. intros v ->. reflexivity. }
  destruct (hp_base_consistent c t p H) as (_ & (_ & A2 & _) & _).
  destruct (hp_ipart_consistent (land_f c) (pa0 c) (pK298 c) t p H) as (_ & (_ & I2 & _) & _).
  assert (L : is_derive (fun v => tV (lanQ c t v)) p (- (S * W * W * (1 - Q * Q) * (1 - Q * Q) / (2 * Q * hp_Tc c p)))).
  { unfold lanQ. cbn [tV]. fold S. fold W.
    set (q := fun v => sqrt (1 - t / hp_Tc c v)) in *. change Q with (q p) in *. change (is_derive q p (t * W / (2 * q p * hp_Tc c p * hp_Tc c p))) in DQ.
    change (0 < q p) in HQ. change (t = hp_Tc c p * (1 - q p * q p)) in E.
    apply is_derive_ext with (fun v => S * W * (q v ^ 3 / 3 - q v)); [reflexivity|]. clearbody q. clear B3 HB EP ET || clear B3 HB EP.
    auto_derive; [csplit; try exact I; eexists; exact DQ|]. ader. rewrite E. clearbody S W. field. csplit; lra. }
  eapply is_derive_eq.
  - unfold hp_low, tplus; cbn [tV]. apply is_derive_add; [exact A2|]. apply is_derive_add; [|apply is_derive_add; [exact I2|exact L]].
    unfold taj; cbn [tV]. apply (@is_derive_const R_AbsRing R_NormedModule).
  - unfold hp_low, tplus, taj, hp_ipart, lanQ. cbn [tV tVp]. rewrite (landau_Vp c t p HTc B3). fold Q. fold S. fold W. change zero with 0. ring.
Qed.
(** alpha-beta quartz parameters of Holland and Powell (Tc0 847 K, Smax 4.95, Vmax 0.1188) *)
Definition hpQTZ := mkHP (-910880.0) 41.50 2.2688 110.7 (-0.005189) 0.0 (-1128.3) 0.65e-5 750000.0 847.0 4.95 0.1188.
Lemma hpQTZ_below : hp_ok (pK298 hpQTZ) 635.25 0 /\ hp_below hpQTZ 635.25 0.
Proof.
  split.
  - apply hp_ok_region; unfold hpQTZ; cbn [pK298]; dec; lra.
  - unfold hp_below, hp_Tc, hpQTZ. cbn [pTc0 pSmax pVmax]. dec. csplit; lra.
Qed.
Theorem HP_dVdP_wrong : ~ is_derive (fun p => tV (HPproperties hpQTZ 635.25 p)) 0 (tVp (HPproperties hpQTZ 635.25 0)).
Proof.
  intro N. destruct hpQTZ_below as (H & B). pose proof (HP_low_dVdP hpQTZ 635.25 0 H B) as D. cbv zeta in D.
  apply is_derive_unique in N. apply is_derive_unique in D. rewrite N in D. clear N.
  assert (T : hp_Tc hpQTZ 0 = 847) by (unfold hp_Tc, hpQTZ; cbn [pTc0 pSmax pVmax]; dec; field).
  assert (Q : sqrt (1 - 635.25 / 847) = / 2).
  { replace (1 - 635.25 / 847) with (/2 * /2) by (dec; field). apply sqrt_square. lra. }
  rewrite T, Q in D. generalize dependent (tVp (HPproperties hpQTZ 635.25 0)). intros a D.
  match type of D with _ = _ - ?b => assert (D0 : b = 0) by lra end. clear D. revert D0. unfold hpQTZ. cbn [pSmax pVmax]. dec. lra.
Qed.

(** ** the free energy jumps at the transition *)
Theorem hematite_jump p : 0 <= p -> ~ continuous (fun t => tG (HPproperties hpHEM t p)) 955.
Proof.
  intros Hp C. set (g := fun t => tG (HPproperties hpHEM t p)) in *.
  pose proof (hp_ok_region (pK298 hpHEM) 955 p) as OK. assert (H : hp_ok (pK298 hpHEM) 955 p) by (apply OK; unfold hpHEM; cbn [pK298]; dec; lra).
  destruct (hp_base_consistent hpHEM 955 p H) as ((A & _) & _).
  assert (CB : continuous (fun t => tG (hp_base hpHEM t p)) 955) by (apply (ex_derive_continuous (fun t => tG (hp_base hpHEM t p))); eexists; exact A).
  set (b := fun t => tG (hp_base hpHEM t p)) in *.
  assert (E0 : g 955 = b 955).
  { unfold g, b. rewrite HP_high; [reflexivity|]. intros (_ & _ & X). rewrite hem_Tc in X. lra. }
  set (q0 := Q298 hpHEM). set (J := - (pSmax hpHEM * pTc0 hpHEM * q0 ^ 3 / 3)).
  assert (Hq : 0 < q0). { unfold q0, Q298, hpHEM, tr. cbn [pTc0]. apply sqrt_lt_R0. dec. lra. }
  assert (HJ : J < 0). { unfold J, hpHEM. cbn [pSmax pTc0]. pose proof (pow_lt q0 3 Hq). dec. nra. }
  (* below the transition: g = b + land_h - t land_s - 2/3 S Tc Q^3 *)
  set (d := fun t => land_h hpHEM - t * land_s hpHEM - 2/3 * pSmax hpHEM * 955 * sqrt (1 - t / 955) ^ 3).
  assert (EB : forall t, 0 < t -> t < 955 -> g t = b t + d t).
  { intros t T1 T2. unfold g, b, d. unfold HPproperties.
    destruct (Rlt_dec 0 (pTc0 hpHEM)) as [_|X]; [|exfalso; apply X; unfold hpHEM; cbn [pTc0]; dec; lra].
    destruct (Rlt_dec 0 (pSmax hpHEM)) as [_|X]; [|exfalso; apply X; unfold hpHEM; cbn [pSmax]; dec; lra].
    destruct (Rlt_dec t (hp_Tc hpHEM p)) as [_|X]; [|rewrite hem_Tc in X; lra].
    unfold tplus; cbn [tG]. rewrite landau_G by (rewrite hem_Tc; lra). rewrite hem_Tc.
    assert (F0 : land_f hpHEM = 0) by (unfold land_f, hpHEM; cbn [pVmax]; dec; ring). rewrite F0.
    unfold hp_I, hp_v. ring. }
  assert (CD : continuous d 955).
  { unfold d. apply (continuous_plus (fun t => land_h hpHEM - t * land_s hpHEM) (fun t => - (2/3 * pSmax hpHEM * 955 * sqrt (1 - t / 955) ^ 3))).
    - apply (ex_derive_continuous (fun t : R => land_h hpHEM - t * land_s hpHEM)). auto_derive. exact I.
    - apply (continuous_opp (fun t => 2/3 * pSmax hpHEM * 955 * sqrt (1 - t / 955) ^ 3)).
      apply (continuous_comp (fun t => sqrt (1 - t / 955)) (fun z => 2/3 * pSmax hpHEM * 955 * z ^ 3)).
      + apply continuous_sqrt_comp. apply (ex_derive_continuous (fun t : R => 1 - t / 955)). auto_derive. exact I.
      + apply (ex_derive_continuous (fun z : R => 2/3 * pSmax hpHEM * 955 * z ^ 3)). auto_derive. exact I. }
  assert (D955 : d 955 = J).
  { unfold d, J, land_h, land_s. replace (1 - 955 / 955) with 0 by field. rewrite sqrt_0. fold q0. unfold hpHEM. cbn [pSmax pTc0]. dec. field. }
  assert (CS : continuous (fun t => g t - (b t + d t)) 955).
  { apply (continuous_minus g (fun t => b t + d t)); [exact C|]. apply (continuous_plus b d); assumption. }
  assert (V : g 955 - (b 955 + d 955) = - J) by (rewrite E0, D955; ring).
  assert (LN : locally 955 (fun t => 0 < g t - (b t + d t))).
  { apply (near_gt (fun t => g t - (b t + d t))); [exact CS|]. rewrite V. lra. }
  destruct LN as [eps LN]. set (m := Rmin (eps / 2) 1).
  assert (M : 0 < m) by (apply Rmin_pos; [pose proof (cond_pos eps); lra|lra]).
  assert (M1 : m <= eps / 2) by apply Rmin_l. assert (M2 : m <= 1) by apply Rmin_r.
  specialize (LN (955 - m)). rewrite EB in LN by lra.
  assert (ball 955 eps (955 - m)). { change (Rabs (955 - m - 955) < eps). replace (955 - m - 955) with (- m) by ring. rewrite Rabs_Ropp, Rabs_pos_eq by lra. pose proof (cond_pos eps). lra. }
  specialize (LN H0). lra.
Qed.
