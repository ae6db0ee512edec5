(** Proofs for EosModel: Berman, Saxena heat capacities and the Berman EOS, Kress liquid. *)
From Coq Require Import Reals Lra Lia.
From Verif Require Import RealTac EosSpec EosModel.
Local Open Scope R_scope.

Lemma is_derive_add (f g : R -> R) x a b : is_derive f x a -> is_derive g x b -> is_derive (fun y => f y + g y) x (a + b).
Proof. exact (@is_derive_plus R_AbsRing R_NormedModule f g x a b). Qed.

Lemma energies_plus F G t p : energies_consistent F t p -> energies_consistent G t p ->
  energies_consistent (fun t p => tplus (F t p) (G t p)) t p.
Proof.
  intros (A1 & A2 & A3 & A4 & A5) (B1 & B2 & B3 & B4 & B5). unfold energies_consistent; cbn.
  csplit.
  - eapply is_derive_eq; [apply is_derive_add; eassumption|ring].
  - rewrite A2, B2; ring.
  - eapply is_derive_eq; [apply is_derive_add; eassumption|unfold Rdiv; ring].
  - apply is_derive_add; assumption.
  - apply is_derive_add; assumption.
Qed.
Lemma volumes_plus F G t p : volumes_consistent F t p -> volumes_consistent G t p ->
  volumes_consistent (fun t p => tplus (F t p) (G t p)) t p.
Proof.
  intros (A1 & A2 & A3 & A4 & A5 & A6) (B1 & B2 & B3 & B4 & B5 & B6). unfold volumes_consistent; cbn.
  csplit; apply is_derive_add; assumption.
Qed.
Lemma consistent_plus F G t p : thermo_consistent F t p -> thermo_consistent G t p ->
  thermo_consistent (fun t p => tplus (F t p) (G t p)) t p.
Proof.
  intros (A & B & C) (A' & B' & C'). split; [apply energies_plus; assumption|].
  split; [apply volumes_plus; assumption|]. unfold volume_is_dGdP in *; cbn. apply is_derive_add; assumption.
Qed.

(** ** Berman EOS *)
Lemma berman_eos_consistent c t p : 0 < t -> thermo_consistent (berman_eos c) t p.
Proof.
  intro Ht. destruct c as [v0 v1 v2 v3 v4].
  unfold thermo_consistent, energies_consistent, volumes_consistent, volume_is_dGdP, berman_eos, SQUARE.
  cbn [tG tH tS tCp tdCp tV tVt tVp tVtt tVtp tVpp bv0 bv1 bv2 bv3 bv4]. generalize tr as tr'; intro tr'.
  unfold pr. dec.
  csplit; try (auto_derive; [trivial|field; lra]). field.
Qed.

(** ** Heat capacities *)
Lemma rpower_32 t : 0 < t -> Rpower t 1.5 = t * sqrt t.
Proof.
  intro H. replace 1.5 with (1 + /2) by (dec; lra). rewrite Rpower_plus, Rpower_1, Rpower_sqrt by lra. reflexivity.
Qed.
Lemma rpower_32' t : 0 < t -> Rpower t (3.0/2.0) = t * sqrt t.
Proof.
  intro H. replace (3.0/2.0) with (1 + /2) by (dec; lra). rewrite Rpower_plus, Rpower_1, Rpower_sqrt by lra. reflexivity.
Qed.
Lemma sqrt_ne t : 0 < t -> sqrt t <> 0.
Proof. intro H. pose proof (sqrt_lt_R0 t H). lra. Qed.
Lemma pos_rdiv a b : 0 < a -> 0 < b -> 0 < a * / b.
Proof. intros. apply Rmult_lt_0_compat; [assumption|apply Rinv_0_lt_compat; assumption]. Qed.

(** auto_derive's side conditions for expressions in t, sqrt t, ln (t/tr) *)
Ltac side := csplit; trivial; try lra; try (apply pos_rdiv; lra); try (apply Rgt_not_eq; apply pos_rdiv; lra);
  try (apply Rgt_not_eq; repeat apply Rmult_lt_0_compat; lra).
(** equations between rational expressions in q = sqrt t, with t = q*q *)
Ltac eqn t Hss := unfold Rdiv; repeat match goal with |- context [ln ?z] => generalize (ln z); intro end;
  try rewrite <- Hss; field; csplit; lra.

Lemma saxena_energy h0 s0 c t p : 0 < t -> energies_consistent (fun t _ => saxena_cp h0 s0 c t) t p.
Proof.
  intro Ht. assert (Htr : 0 < tr) by (unfold tr; dec; lra). destruct c as [a b cc d e g h].
  unfold energies_consistent, saxena_cp, SQUARE, CUBE, QUARTIC.
  cbn [tG tH tS tCp tdCp sxa sxb sxc sxd sxe sxg sxh].
  rewrite rpower_32' by assumption.
  generalize dependent tr. intros tr' Htr.
  pose proof (sqrt_lt_R0 t Ht) as Hs. pose proof (sqrt_sqrt t (Rlt_le _ _ Ht)) as Hss.
  pose proof (sqrt_lt_R0 tr' Htr) as Hs'.
  dec. set (q := sqrt t) in *. unfold Rdiv.
  csplit; try (auto_derive; [fold q; side|fold q; eqn t Hss]). eqn t Hss.
Qed.

Lemma energies_near F G t p (eps : posreal) :
  (forall u, Rabs (u - t) < eps -> F u p = G u p) -> energies_consistent G t p -> energies_consistent F t p.
Proof.
  intros H (A1 & A2 & A3 & A4 & A5).
  assert (E : F t p = G t p). { apply H. rewrite Rminus_eq_0, Rabs_R0. apply cond_pos. }
  unfold energies_consistent. rewrite E. csplit; try exact A2;
  (eapply is_derive_near with (eps := eps); [intros u Hu; rewrite (H u Hu); reflexivity|assumption]).
Qed.

(** the smooth part: no transition *)
Definition berman_base (h0 s0 : R) (c : cpBerman) (t : R) : thermo :=
  berman_cp h0 s0 (mkCpBerman (k0 c) (k1 c) (k2 c) (k3 c) 0 0 0 0) t.

Lemma berman_base_energy h0 s0 c t p : 0 < t -> energies_consistent (fun t _ => berman_base h0 s0 c t) t p.
Proof.
  intro Ht. assert (Htr : 0 < tr) by (unfold tr; dec; lra). destruct c as [a b cc d e g h i].
  unfold energies_consistent, berman_base, berman_cp, SQUARE, CUBE, QUARTIC.
  cbn [tG tH tS tCp tdCp k0 k1 k2 k3 cpT cpH l1 l2].
  destruct (Req_EM_T 0 0.0) as [_|N]; [|exfalso; apply N; dec; lra].
  cbn [tG tH tS tCp tdCp].
  rewrite rpower_32 by assumption.
  generalize dependent tr. intros tr' Htr.
  pose proof (sqrt_lt_R0 t Ht) as Hs. pose proof (sqrt_sqrt t (Rlt_le _ _ Ht)) as Hss.
  pose proof (sqrt_lt_R0 tr' Htr) as Hs'.
  dec. set (q := sqrt t) in *. unfold Rdiv.
  csplit; try (auto_derive; [fold q; side|fold q; eqn t Hss]). eqn t Hss.
Qed.

(** the lambda term below the transition *)
Definition lambda_part (L1 L2 : R) (t : R) : thermo :=
  let hs := 0.5 * L1 * L1 * (t*t - tr*tr) + (2.0/3.0) * L1 * L2 * (t*t*t - tr*tr*tr)
         + 0.25 * L2 * L2 * (t*t*t*t - tr*tr*tr*tr) in
  let ss := L1 * L1 * (t - tr) + L1 * L2 * (t*t - tr*tr) + (1.0/3.0) * L2 * L2 * (t*t*t - tr*tr*tr) in
  mkThermo (hs - t * ss) hs ss (t * SQUARE (L1 + L2 * t)) (SQUARE (L1 + L2 * t) + t * 2.0 * (L1 + L2 * t) * L2) 0 0 0 0 0 0.
Lemma lambda_energy L1 L2 t p : 0 < t -> energies_consistent (fun t _ => lambda_part L1 L2 t) t p.
Proof.
  intro Ht. unfold energies_consistent, lambda_part, SQUARE. cbn [tG tH tS tCp tdCp].
  generalize tr. intro tr'. dec.
  csplit; try (auto_derive; [trivial|field; lra]). field.
Qed.

Lemma zero00 : 0 = 0.0. Proof. dec; lra. Qed.
Lemma base_eq h0 s0 c t : berman_base h0 s0 c t = berman_cp h0 s0 (mkCpBerman (k0 c) (k1 c) (k2 c) (k3 c) 0 0 0 0) t.
Proof. reflexivity. Qed.

Ltac thermo_eq := match goal with |- ?x = ?y => idtac end; unfold tplus; cbn [tG tH tS tCp tdCp tV tVt tVp tVtt tVtp tVpp]; f_equal.

Lemma berman_cp_notrans h0 s0 c t : cpT c = 0 -> berman_cp h0 s0 c t = berman_base h0 s0 c t.
Proof.
  intro H. unfold berman_base, berman_cp. cbn [k0 k1 k2 k3 cpT cpH l1 l2]. rewrite H.
  destruct (Req_EM_T 0 0.0) as [_|N]; [reflexivity|]. exfalso; apply N; apply zero00.
Qed.
Definition h_above (h0 : R) (c : cpBerman) : R := h0 + cpH c + 0.5 * l1 c * l1 c * (cpT c * cpT c - tr*tr)
         + (2.0/3.0) * l1 c * l2 c * (cpT c * cpT c * cpT c - tr*tr*tr)
         + 0.25 * l2 c * l2 c * (cpT c * cpT c * cpT c * cpT c - tr*tr*tr*tr).
Definition s_above (s0 : R) (c : cpBerman) : R := s0 + cpH c / cpT c + l1 c * l1 c * (cpT c - tr)
         + l1 c * l2 c * (cpT c * cpT c - tr*tr)
         + (1.0/3.0) * l2 c * l2 c * (cpT c * cpT c * cpT c - tr*tr*tr).
Lemma berman_cp_above h0 s0 c t : cpT c <> 0 -> cpT c < t -> berman_cp h0 s0 c t = berman_base (h_above h0 c) (s_above s0 c) c t.
Proof.
  intros H H'. unfold berman_base, berman_cp. cbn [k0 k1 k2 k3 cpT cpH l1 l2].
  destruct (Req_EM_T (cpT c) 0.0) as [N|_]; [exfalso; apply H; rewrite N; symmetry; apply zero00|].
  destruct (Rlt_dec (cpT c) t) as [_|N]; [|contradiction].
  destruct (Req_EM_T 0 0.0) as [_|N]; [|exfalso; apply N; apply zero00].
  unfold h_above, s_above. f_equal; ring.
Qed.
Lemma berman_cp_below h0 s0 c t : cpT c <> 0 -> t < cpT c -> berman_cp h0 s0 c t = tplus (berman_base h0 s0 c t) (lambda_part (l1 c) (l2 c) t).
Proof.
  intros H H'. unfold berman_base, berman_cp. cbn [k0 k1 k2 k3 cpT cpH l1 l2].
  destruct (Req_EM_T (cpT c) 0.0) as [N|_]; [exfalso; apply H; rewrite N; symmetry; apply zero00|].
  destruct (Rlt_dec (cpT c) t) as [N|_]; [lra|].
  destruct (Req_EM_T 0 0.0) as [_|N]; [|exfalso; apply N; apply zero00].
  unfold lambda_part, tplus. cbn [tG tH tS tCp tdCp tV tVt tVp tVtt tVtp tVpp]. f_equal; ring.
Qed.

Lemma berman_cp_energy h0 s0 c t p : 0 < t -> cpT c = 0 \/ t <> cpT c ->
  energies_consistent (fun t _ => berman_cp h0 s0 c t) t p.
Proof.
  intros Ht H. destruct (Req_dec (cpT c) 0) as [Z|Z].
  - apply energies_near with (G := fun t _ => berman_base h0 s0 c t) (eps := mkposreal 1 Rlt_0_1).
    + intros u _. apply berman_cp_notrans; exact Z.
    + apply berman_base_energy; exact Ht.
  - destruct H as [H|H]; [contradiction|]. destruct (Rlt_dec (cpT c) t) as [L|L].
    + assert (E : 0 < t - cpT c) by lra.
      apply energies_near with (G := fun t _ => berman_base (h_above h0 c) (s_above s0 c) c t) (eps := mkposreal _ E).
      * intros u Hu. cbn in Hu. apply Rabs_def2 in Hu. apply berman_cp_above; [exact Z|lra].
      * apply berman_base_energy; exact Ht.
    + assert (E : 0 < cpT c - t) by lra.
      apply energies_near with (G := fun t _ => tplus (berman_base h0 s0 c t) (lambda_part (l1 c) (l2 c) t)) (eps := mkposreal _ E).
      * intros u Hu. cbn in Hu. apply Rabs_def2 in Hu. apply berman_cp_below; [exact Z|lra].
      * apply (energies_plus (fun t _ => berman_base h0 s0 c t) (fun t _ => lambda_part (l1 c) (l2 c) t));
        [apply berman_base_energy|apply lambda_energy]; exact Ht.
Qed.

(** the reference part has no volume *)
Definition smooth_at (m : cp_model) (t : R) : Prop := match m with CP_BERMAN c => cpT c = 0 \/ t <> cpT c | CP_SAXENA _ => True end.
Lemma solid_ref_novol h0 s0 m t : let r := solid_ref h0 s0 m t in
  tV r = 0 /\ tVt r = 0 /\ tVp r = 0 /\ tVtt r = 0 /\ tVtp r = 0 /\ tVpp r = 0.
Proof.
  destruct m as [c|c]; cbn [solid_ref].
  - unfold berman_cp. destruct (Req_EM_T (cpT c) 0.0); [|destruct (Rlt_dec (cpT c) t)]; cbn; repeat split; reflexivity.
  - cbn; repeat split; reflexivity.
Qed.
Lemma solid_ref_consistent h0 s0 m t p : 0 < t -> smooth_at m t -> thermo_consistent (fun t _ => solid_ref h0 s0 m t) t p.
Proof.
  intros Ht Hm. split; [|split].
  - destruct m as [c|c]; [apply berman_cp_energy; assumption|apply saxena_energy; assumption].
  - unfold volumes_consistent.
    destruct (solid_ref_novol h0 s0 m t) as (V1 & V2 & V3 & V4 & V5 & V6). cbv zeta in *. rewrite V2, V3, V4, V5, V6.
    assert (Z : forall f : R -> R, (forall u, f u = 0) -> forall x, is_derive f x 0).
    { intros f Hf x. apply is_derive_ext with (fun _ => 0); [intro; symmetry; apply Hf|]. apply (@is_derive_const R_AbsRing R_NormedModule). }
    csplit; apply Z; intro u; try assumption; try reflexivity; apply (solid_ref_novol h0 s0 m u).
  - unfold volume_is_dGdP. destruct (solid_ref_novol h0 s0 m t) as (V1 & _). rewrite V1.
    apply (@is_derive_const R_AbsRing R_NormedModule).
Qed.

Theorem solid_berman_consistent h0 s0 m e t p : 0 < t -> smooth_at m t -> thermo_consistent (solid_berman h0 s0 m e) t p.
Proof.
  intros Ht Hm. apply (consistent_plus (fun t _ => solid_ref h0 s0 m t) (berman_eos e)).
  - apply solid_ref_consistent; assumption.
  - apply berman_eos_consistent; assumption.
Qed.

(** ** Kress liquid *)
Definition liq_smooth (l : liqKress) (c : cpBerman) (t : R) : Prop := ltglass l < t \/ (t < ltglass l /\ t <> cpT c).

(** pressure terms of the Kress liquid *)
Definition kress_eos (l : liqKress) (t p : R) : thermo :=
  let i := (lv l + ldvdt l*(t-trl))*(p-pr)
      + 0.5*(ldvdp l + (t-trl)*ld2vdtp l)*(p*p-pr*pr)
      - (ldvdp l + (t-trl)*ld2vdtp l)*pr*(p-pr)
      + ld2vdp2 l*((CUBE p - CUBE pr)/6.0 - pr*(p*p-pr*pr)/2.0 + pr*pr*(p-pr)/2.0) in
  mkThermo i (i - t*(ldvdt l*(p-pr) + 0.5*ld2vdtp l*(p-pr)*(p-pr)))
    (- (ldvdt l*(p-pr) + 0.5*ld2vdtp l*(p-pr)*(p-pr))) 0 0
    (lv l + ldvdt l*(t-trl) + (ldvdp l + ld2vdtp l*(t-trl))*(p-pr) + ld2vdp2 l*(0.5*p*p - pr*(p-pr)))
    (ldvdt l + ld2vdtp l*(p-pr)) (ldvdp l + ld2vdtp l*(t-trl) + ld2vdp2 l*(p-pr)) 0.0 (ld2vdtp l) (ld2vdp2 l).
Definition liq_ref (l : liqKress) (c : cpBerman) (t : R) : thermo :=
  let '(h, s, cp, dcp) := liq_cp l c t in mkThermo (h - t*s) h s cp dcp 0 0 0 0 0 0.
Lemma kress_split l c t p : kress_liquid l c t p = tplus (liq_ref l c t) (kress_eos l t p).
Proof.
  unfold kress_liquid, liq_ref, kress_eos, tplus. destruct (liq_cp l c t) as [[[h s] cp] dcp].
  cbn [tG tH tS tCp tdCp tV tVt tVp tVtt tVtp tVpp]. f_equal; ring.
Qed.
Lemma kress_eos_energy l t p : 0 < t -> energies_consistent (kress_eos l) t p.
Proof.
  intro Ht. destruct l as [w1 w2 w3 w4 w5 w6 w7 w8 w9 w10]. unfold energies_consistent, kress_eos, CUBE.
  cbn [tG tH tS tCp tdCp lv ldvdt ldvdp ld2vdtp ld2vdp2]. generalize trl; intro tl. unfold pr. dec.
  csplit; try (auto_derive; [trivial|field; lra]). ring.
Qed.
Lemma kress_eos_volumes l t p : volumes_consistent (kress_eos l) t p.
Proof.
  destruct l as [w1 w2 w3 w4 w5 w6 w7 w8 w9 w10]. unfold volumes_consistent, kress_eos, CUBE.
  cbn [tV tVt tVp tVtt tVtp tVpp lv ldvdt ldvdp ld2vdtp ld2vdp2]. generalize trl; intro tl. unfold pr. dec.
  csplit; (auto_derive; [trivial|field; lra]).
Qed.
Lemma kress_eos_dGdP l t p : is_derive (fun p => tG (kress_eos l t p)) p (tV (kress_eos l t p) - ld2vdp2 l / 2).
Proof.
  destruct l as [w1 w2 w3 w4 w5 w6 w7 w8 w9 w10]. unfold kress_eos, CUBE.
  cbn [tG tV lv ldvdt ldvdp ld2vdtp ld2vdp2]. generalize trl; intro tl. unfold pr. dec.
  auto_derive; [trivial|field; lra].
Qed.

Lemma liq_ref_above l c t p : 0 < t -> 0 < ltfus l -> ltglass l < t -> energies_consistent (fun t _ => liq_ref l c t) t p.
Proof.
  intros Ht Hf Hg. assert (E : 0 < t - ltglass l) by lra.
  apply energies_near with (eps := mkposreal _ E)
    (G := fun t _ => let h := lfh l + lcp l * (t - ltfus l) in let s := lfs l + lcp l * ln (t / ltfus l) in
                     mkThermo (h - t*s) h s (lcp l) 0.0 0 0 0 0 0 0).
  - intros u Hu. cbn in Hu. apply Rabs_def2 in Hu. unfold liq_ref, liq_cp. destruct (Rlt_dec (ltglass l) u); [reflexivity|lra].
  - unfold energies_consistent. cbn [tG tH tS tCp tdCp]. dec. unfold Rdiv.
    csplit; try (auto_derive; [side|unfold Rdiv; field; lra]). field; lra.
Qed.

Definition glass_k (l : liqKress) (c : cpBerman) : R :=
  k0 c + (lcp l - (k0 c + k1 c / sqrt (ltglass l) + k2 c / SQUARE (ltglass l) + k3 c / CUBE (ltglass l))).
(** the glass branch is the Berman base with another k0 and other constants *)
Lemma liq_ref_glass l c t p : 0 < t -> 0 < ltglass l -> t < ltglass l -> t <> cpT c -> energies_consistent (fun t _ => liq_ref l c t) t p.
Proof.
  intros Ht Hg Hl Hc.
  set (tg := ltglass l) in *.
  set (h1 := lfh l + lcp l * (tg - ltfus l)). set (s1 := lfs l + lcp l * ln (tg / ltfus l)).
  set (kk := glass_k l c).
  set (A := fun t : R =>
     let hl := h1 + kk * (t - tg) + 2.0 * k1 c * (sqrt t - sqrt tg) - k2 c * (1.0/t - 1.0/tg)
              - 0.5 * k3 c * (1.0/SQUARE t - 1.0/SQUARE tg) in
     let sl := s1 + kk * ln (t/tg) - 2.0 * k1 c * (1.0/sqrt t - 1.0/sqrt tg)
              - 0.5 * k2 c * (1.0/SQUARE t - 1.0/SQUARE tg) - (1.0/3.0) * k3 c * (1.0/CUBE t - 1.0/CUBE tg) in
     mkThermo (hl - t*sl) hl sl (kk + k1 c / sqrt t + k2 c / (t*t) + k3 c / CUBE t)
       (- (0.5 * k1 c / Rpower t 1.5) - 2.0 * k2 c / CUBE t - 3.0 * k3 c / QUARTIC t) 0 0 0 0 0 0).
  set (B := fun t : R =>
     let h := 0.5 * l1 c * l1 c * (t*t - cpT c * cpT c) + (2.0/3.0) * l1 c * l2 c * (CUBE t - CUBE (cpT c))
          + 0.25 * l2 c * l2 c * (QUARTIC t - QUARTIC (cpT c)) in
     let s := l1 c * l1 c * (t - cpT c) + l1 c * l2 c * (t*t - cpT c * cpT c)
          + (1.0/3.0) * l2 c * l2 c * (CUBE t - CUBE (cpT c)) in
     mkThermo (h - t*s) h s (t * SQUARE (l1 c + l2 c * t)) (SQUARE (l1 c + l2 c * t) + t * 2.0 * (l1 c + l2 c * t) * l2 c) 0 0 0 0 0 0).
  assert (EA : energies_consistent (fun t _ => A t) t p).
  { unfold energies_consistent, A, SQUARE, CUBE, QUARTIC. cbn [tG tH tS tCp tdCp].
    rewrite rpower_32 by assumption. clearbody h1 s1 kk tg. clear A B.
    pose proof (sqrt_lt_R0 t Ht) as Hs. pose proof (sqrt_sqrt t (Rlt_le _ _ Ht)) as Hss.
    pose proof (sqrt_lt_R0 tg Hg) as Hs'.
    dec. set (q := sqrt t) in *. unfold Rdiv.
    csplit; try (auto_derive; [fold q; side|fold q; eqn t Hss]). eqn t Hss. }
  assert (EB : energies_consistent (fun t _ => B t) t p).
  { unfold energies_consistent, B, SQUARE, CUBE, QUARTIC. cbn [tG tH tS tCp tdCp]. clearbody h1 s1 kk tg. clear A B EA. dec.
    csplit; try (auto_derive; [trivial|field; lra]). field. }
  destruct (Rlt_dec t (cpT c)) as [L|L].
  - assert (E : 0 < Rmin (tg - t) (cpT c - t)) by (apply Rmin_glb_lt; lra).
    apply energies_near with (eps := mkposreal _ E) (G := fun t _ => tplus (A t) (B t)); [|apply energies_plus; assumption].
    intros u Hu. cbn in Hu. apply Rabs_def2 in Hu.
    pose proof (Rmin_l (tg - t) (cpT c - t)). pose proof (Rmin_r (tg - t) (cpT c - t)).
    unfold liq_ref, liq_cp. fold tg. destruct (Rlt_dec tg u) as [N|_]; [lra|]. destruct (Rlt_dec u (cpT c)) as [_|N]; [|lra].
    unfold tplus, A, B. cbn [tG tH tS tCp tdCp tV tVt tVp tVtt tVtp tVpp]. unfold kk, glass_k, h1, s1. fold tg. f_equal; ring.
  - assert (E : 0 < Rmin (tg - t) (t - cpT c)) by (apply Rmin_glb_lt; lra).
    apply energies_near with (eps := mkposreal _ E) (G := fun t _ => A t); [|assumption].
    intros u Hu. cbn in Hu. apply Rabs_def2 in Hu.
    pose proof (Rmin_l (tg - t) (t - cpT c)). pose proof (Rmin_r (tg - t) (t - cpT c)).
    unfold liq_ref, liq_cp. fold tg. destruct (Rlt_dec tg u) as [N|_]; [lra|]. destruct (Rlt_dec u (cpT c)) as [N|_]; [lra|].
    unfold A. unfold kk, glass_k, h1, s1. fold tg. reflexivity.
Qed.

Lemma liq_ref_novol l c t : let r := liq_ref l c t in tV r = 0 /\ tVt r = 0 /\ tVp r = 0 /\ tVtt r = 0 /\ tVtp r = 0 /\ tVpp r = 0.
Proof. unfold liq_ref. destruct (liq_cp l c t) as [[[? ?] ?] ?]. cbn. repeat split; reflexivity. Qed.

Lemma energies_ext F G t p : (forall u v, F u v = G u v) -> energies_consistent F t p -> energies_consistent G t p.
Proof.
  intros H A. apply energies_near with (G := F) (eps := mkposreal 1 Rlt_0_1); [|exact A]. intros; symmetry; apply H.
Qed.
Lemma volumes_ext F G t p : (forall u v, F u v = G u v) -> volumes_consistent F t p -> volumes_consistent G t p.
Proof.
  intros H (A1 & A2 & A3 & A4 & A5 & A6). unfold volumes_consistent. rewrite <- !H.
  csplit; (eapply is_derive_ext; [intro u; rewrite <- H; reflexivity|assumption]).
Qed.

Theorem kress_energies l c t p : 0 < t -> 0 < ltfus l -> liq_smooth l c t ->
  energies_consistent (kress_liquid l c) t p.
Proof.
  intros Ht Hf Hs.
  apply energies_ext with (fun t p => tplus (liq_ref l c t) (kress_eos l t p)); [intros; symmetry; apply kress_split|].
  apply (energies_plus (fun t _ => liq_ref l c t)); [|apply kress_eos_energy; exact Ht].
  destruct Hs as [H|[H H']]; [apply liq_ref_above|apply liq_ref_glass]; try assumption; lra.
Qed.
Lemma kress_vol_eq l c t p : tV (kress_liquid l c t p) = tV (kress_eos l t p).
Proof. rewrite kress_split. unfold tplus. cbn [tV]. destruct (liq_ref_novol l c t) as (E & _). rewrite E. apply Rplus_0_l. Qed.
Theorem kress_volumes l c t p : volumes_consistent (kress_liquid l c) t p.
Proof.
  apply volumes_ext with (kress_liquid l c); [reflexivity|].
  assert (H : forall u v, tV (kress_liquid l c u v) = tV (kress_eos l u v) /\ tVt (kress_liquid l c u v) = tVt (kress_eos l u v)
     /\ tVp (kress_liquid l c u v) = tVp (kress_eos l u v) /\ tVtt (kress_liquid l c u v) = tVtt (kress_eos l u v)
     /\ tVtp (kress_liquid l c u v) = tVtp (kress_eos l u v) /\ tVpp (kress_liquid l c u v) = tVpp (kress_eos l u v)).
  { intros u v. rewrite kress_split. unfold tplus. cbn [tV tVt tVp tVtt tVtp tVpp].
    destruct (liq_ref_novol l c u) as (E1 & E2 & E3 & E4 & E5 & E6). cbv zeta in *. rewrite E1, E2, E3, E4, E5, E6.
    repeat split; ring. }
  destruct (kress_eos_volumes l t p) as (A1 & A2 & A3 & A4 & A5 & A6). unfold volumes_consistent.
  destruct (H t p) as (_ & -> & -> & -> & -> & ->).
  csplit; (eapply is_derive_ext; [intro u; symmetry; apply H|assumption]).
Qed.
Theorem kress_dGdP l c t p : is_derive (fun p => tG (kress_liquid l c t p)) p (tV (kress_liquid l c t p) - ld2vdp2 l / 2).
Proof.
  rewrite kress_vol_eq.
  apply is_derive_ext with (fun p => tG (liq_ref l c t) + tG (kress_eos l t p)).
  - intro u. rewrite kress_split. reflexivity.
  - eapply is_derive_eq; [apply is_derive_add; [apply (@is_derive_const R_AbsRing R_NormedModule)|apply kress_eos_dGdP]|].
    apply Rplus_0_l.
Qed.
