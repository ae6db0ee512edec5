(** The viscosity of the liquid: temperature, water, silica. *)
From Coq Require Import Reals List Lia Lra Bool Arith.
From Verif Require Import MassModel MassProofs LiqModel.
Open Scope R_scope.

Lemma sum_pos n f : (forall i, (i < n)%nat -> 0 <= f i) -> 0 <= sum n f.
Proof. induction n; intros H; cbn [sum]; [lra|]. specialize (IHn ltac:(intros; apply H; lia)). specialize (H n ltac:(lia)). lra. Qed.
Lemma sum_member n f k : (forall i, (i < n)%nat -> 0 <= f i) -> (k < n)%nat -> f k <= sum n f.
Proof.
  induction n; intros H Hk; [lia|]. cbn [sum]. destruct (Nat.eq_dec k n) as [->|Ne].
  - pose proof (sum_pos n f ltac:(intros; apply H; lia)). lra.
  - specialize (IHn ltac:(intros; apply H; lia) ltac:(lia)). specialize (H n ltac:(lia)). lra.
Qed.
Lemma sum_mono n f g : (forall i, (i < n)%nat -> f i <= g i) -> sum n f <= sum n g.
Proof. induction n; intros H; cbn [sum]; [lra|]. specialize (IHn ltac:(intros; apply H; lia)). specialize (H n ltac:(lia)). lra. Qed.
Lemma ln10 : 0 < ln 10. Proof. rewrite <- ln_1. apply ln_increasing; lra. Qed.
Ltac num := try (unfold Q2R; cbn); lra.

Section V.
Variable tab : Tab.
Variables coeff factor : nat -> R.
Variable si : nat.
Notation na := (nc tab).
Notation q := (shawMoles tab factor).
Notation slope := (shawSlope tab coeff factor si).
Notation viscosity := (viscosity tab coeff factor si).
Hypothesis Si : (si < na)%nat.
Hypothesis C0 : coeff si = 0.
Hypothesis Cpos : forall i, (i < na)%nat -> 0 <= coeff i.
(** a composition without negative oxides, and with something in it besides silica *)
Definition silicate (m : nat -> R) : Prop := (forall i, (i < na)%nat -> 0 <= q m i) /\ 0 < sum na (q m) - q m si.
Definition weighted (m : nat -> R) : R := sum na (fun i => coeff i * q m i).

Lemma slope_eq m : silicate m -> slope m = q m si * weighted m / (sum na (q m) * (sum na (q m) - q m si)).
Proof.
  intros [P D]. pose proof (P si Si) as PS. set (S0 := sum na (q m)) in *. assert (SP : 0 < S0) by lra.
  unfold shawSlope, shawX. fold S0. assert (Z : isZ S0 = false) by (unfold isZ; destruct (Req_EM_T S0 0); [lra|auto]). rewrite Z. cbv zeta.
  rewrite (sum_ext na _ (fun i => (q m si / (S0 * S0)) * (coeff i * q m i))) by (intros i Hi; field; lra). rewrite sum_scal. fold (weighted m).
  destruct (Rlt_dec (q m si / S0) 1) as [L|L].
  - field. lra.
  - exfalso. apply L. apply (Rmult_lt_reg_r S0); auto. unfold Rdiv. rewrite Rmult_assoc, Rinv_l by lra. lra.
Qed.
Lemma slope_nonneg m : silicate m -> 0 <= slope m.
Proof.
  intros P. rewrite slope_eq by auto. destruct P as [P D]. pose proof (P si Si). apply Rmult_le_pos.
  - apply Rmult_le_pos; auto. apply sum_pos. intros i Hi. apply Rmult_le_pos; auto.
  - left. apply Rinv_0_lt_compat. apply Rmult_lt_0_compat; lra.
Qed.

(** ** C87: hotter is less viscous, wetter is less viscous *)
Theorem C87_temperature m t1 t2 : silicate m -> 0 < t1 -> t1 < t2 -> viscosity t2 m <= viscosity t1 m.
Proof.
  intros P T1 T2. pose proof ln10. pose proof (slope_nonneg m P) as SP. unfold LiqModel.viscosity. apply Rmult_le_compat_r; [left; now apply Rinv_0_lt_compat|].
  assert (10000 / t2 <= 10000 / t1) by (apply Rmult_le_compat_l; [lra|]; left; apply Rinv_lt_contravar; auto; apply Rmult_lt_0_compat; lra).
  apply Rplus_le_compat_r. apply Rmult_le_compat_l; lra.
Qed.
(** below 6666 K a steeper liquid is more viscous *)
Lemma viscosity_mono t m m' : 0 < t -> t <= 6666 -> slope m <= slope m' -> viscosity t m <= viscosity t m'.
Proof.
  intros T1 T2 L. pose proof ln10. unfold LiqModel.viscosity. apply Rmult_le_compat_r; [left; now apply Rinv_0_lt_compat|]. apply Rplus_le_compat_r.
  apply Rmult_le_compat_r; auto. assert (10000 / 6666 <= 10000 / t) by (apply Rmult_le_compat_l; [lra|]; apply Rinv_le_contravar; lra). num.
Qed.
(** the composition with more of one oxide *)
Definition more (m m' : nat -> R) (w : nat) (h : R) : Prop := forall i, (i < na)%nat -> q m' i = q m i + (if Nat.eqb i w then h else 0).
Lemma more_sum m m' w h : (w < na)%nat -> more m m' w h -> sum na (q m') = sum na (q m) + h.
Proof. intros Hw H. rewrite (sum_ext na (q m') (fun i => q m i + (if Nat.eqb i w then h else 0))) by auto. rewrite sum_plus, sum_one. apply Nat.ltb_lt in Hw. now rewrite Hw. Qed.
Lemma more_weighted m m' w h : (w < na)%nat -> more m m' w h -> weighted m' = weighted m + coeff w * h.
Proof.
  intros Hw H. unfold weighted. rewrite (sum_ext na _ (fun i => coeff i * q m i + (if Nat.eqb i w then coeff i * h else 0))).
  - rewrite sum_plus, (sum_one_f na w (fun i => coeff i * h)). apply Nat.ltb_lt in Hw. now rewrite Hw.
  - intros i Hi. rewrite H by auto. destruct (i =? w); ring.
Qed.
Lemma more_silicate m m' w h : (w < na)%nat -> 0 <= h -> silicate m -> more m m' w h -> silicate m'.
Proof.
  intros Hw Hh [P D] H. split.
  - intros i Hi. rewrite H by auto. specialize (P i Hi). destruct (i =? w); lra.
  - rewrite (more_sum m m' w h) by auto. rewrite (H si Si). destruct (si =? w); lra.
Qed.
Theorem C87_water_partial t m m' w h : 0 < t -> t <= 6666 -> (w < na)%nat -> w <> si -> 0 <= h -> silicate m -> more m m' w h ->
  (forall i, (i < na)%nat -> i <> si -> q m i <> 0 -> coeff w <= coeff i) -> viscosity t m' <= viscosity t m.
Proof.
  intros T1 T2 Hw Ne Hh P H Low. apply viscosity_mono; auto. pose proof (more_silicate m m' w h Hw Hh P H) as P'.
  rewrite (slope_eq m P), (slope_eq m' P'). rewrite (more_sum m m' w h Hw H), (more_weighted m m' w h Hw H), (H si Si).
  replace (si =? w) with false by (symmetry; apply Nat.eqb_neq; auto). rewrite Rplus_0_r. destruct P as [P D]. pose proof (P si Si) as PS.
  assert (WB : coeff w * (sum na (q m) - q m si) <= weighted m).
  { unfold weighted. replace (sum na (q m) - q m si) with (sum na (fun i => if Nat.eqb i si then 0 else q m i)).
    - rewrite <- sum_scal. apply sum_mono. intros i Hi. destruct (Nat.eqb_spec i si) as [->|Ni]; [rewrite C0; lra|].
      destruct (Req_EM_T (q m i) 0) as [->|Nz]; [lra|]. apply Rmult_le_compat_r; auto.
    - rewrite (sum_ext na _ (fun i => q m i + (if Nat.eqb i si then - q m i else 0))) by (intros i Hi; destruct (i =? si); ring). rewrite sum_plus, (sum_one_f na si (fun i => - q m i)).
      apply Nat.ltb_lt in Si. rewrite Si. ring. }
  set (S0 := sum na (q m)) in *. set (a := q m si) in *. set (C := weighted m) in *. set (c := coeff w) in *.
  assert (CP : 0 <= c) by (apply Cpos; auto).
  unfold Rdiv. apply (Rmult_le_reg_r ((S0 + h) * (S0 + h - a) * (S0 * (S0 - a)))); [repeat apply Rmult_lt_0_compat; lra|].
  replace (a * (C + c * h) * / ((S0 + h) * (S0 + h - a)) * ((S0 + h) * (S0 + h - a) * (S0 * (S0 - a)))) with (a * ((C + c * h) * (S0 * (S0 - a)))) by (field; lra).
  replace (a * C * / (S0 * (S0 - a)) * ((S0 + h) * (S0 + h - a) * (S0 * (S0 - a)))) with (a * (C * ((S0 + h) * (S0 + h - a)))) by (field; lra).
  apply Rmult_le_compat_l; auto.
  assert (K : C * ((S0 + h) * (S0 + h - a)) - (C + c * h) * (S0 * (S0 - a)) = h * (C * (2 * S0 - a + h) - c * (S0 * (S0 - a)))) by ring.
  assert (K2 : 0 <= h * (C * (2 * S0 - a + h) - c * (S0 * (S0 - a)))).
  { apply Rmult_le_pos; auto. apply Rle_trans with (c * (S0 - a) * (2 * S0 - a + h) - c * (S0 * (S0 - a))).
    - replace (c * (S0 - a) * (2 * S0 - a + h) - c * (S0 * (S0 - a))) with (c * ((S0 - a) * (S0 - a + h))) by ring. apply Rmult_le_pos; auto. apply Rmult_le_pos; lra.
    - apply Rplus_le_compat_r. apply Rmult_le_compat_r; lra. }
  lra.
Qed.
(** the same as a property of its own (C120) *)
Theorem C120_water t m m' w h : 0 < t -> t <= 6666 -> (w < na)%nat -> w <> si -> 0 <= h -> silicate m -> more m m' w h ->
  (forall i, (i < na)%nat -> i <> si -> q m i <> 0 -> coeff w <= coeff i) -> viscosity t m' <= viscosity t m.
Proof. exact (C87_water_partial t m m' w h). Qed.

(** ** C88: more silica, more viscous *)
Theorem C88_silica_partial t m m' h : 0 < t -> t <= 6666 -> 0 <= h -> silicate m -> more m m' si h -> viscosity t m <= viscosity t m'.
Proof.
  intros T1 T2 Hh P H. apply viscosity_mono; auto. pose proof (more_silicate m m' si h Si Hh P H) as P'.
  rewrite (slope_eq m P), (slope_eq m' P'). rewrite (more_sum m m' si h Si H), (more_weighted m m' si h Si H), (H si Si), Nat.eqb_refl, C0.
  destruct P as [P D]. pose proof (P si Si) as PS. assert (WP : 0 <= weighted m) by (apply sum_pos; intros i Hi; apply Rmult_le_pos; auto).
  set (S0 := sum na (q m)) in *. set (a := q m si) in *. set (C := weighted m) in *. replace (C + 0 * h) with C by ring.
  replace (a * C / (S0 * (S0 - a))) with (C / (S0 - a) * (a / S0)) by (field; lra).
  replace ((a + h) * C / ((S0 + h) * (S0 + h - (a + h)))) with (C / (S0 - a) * ((a + h) / (S0 + h))) by (field; lra).
  apply Rmult_le_compat_l; [apply Rmult_le_pos; auto; left; apply Rinv_0_lt_compat; lra|].
  apply (Rmult_le_reg_r (S0 * (S0 + h))); [apply Rmult_lt_0_compat; lra|].
  replace (a / S0 * (S0 * (S0 + h))) with (a * (S0 + h)) by (field; lra). replace ((a + h) / (S0 + h) * (S0 * (S0 + h))) with ((a + h) * S0) by (field; lra).
  assert (a * h <= S0 * h) by (apply Rmult_le_compat_r; lra). lra.
Qed.
(** the same as a property of its own (C120) *)
Theorem C120_silica t m m' h : 0 < t -> t <= 6666 -> 0 <= h -> silicate m -> more m m' si h -> viscosity t m <= viscosity t m'.
Proof. exact (C88_silica_partial t m m' h). Qed.
(** pure silica is reported at the bottom of the scale *)
Theorem C88_refuted t m : 0 < q m si -> (forall i, (i < na)%nat -> i <> si -> q m i = 0) -> viscosity t m = (- (6.40)) / ln 10.
Proof.
  intros P Z. unfold LiqModel.viscosity. replace (slope m) with 0; [rewrite Rmult_0_l; unfold Rminus; now rewrite Rplus_0_l|]. symmetry. unfold shawSlope. cbv zeta.
  rewrite (sum_0 na); [unfold Rdiv; ring|]. intros i Hi. destruct (Nat.eq_dec i si) as [->|Ne]; [rewrite C0; ring|]. unfold shawX at 2. rewrite (Z i Hi Ne). unfold Rdiv. ring.
Qed.
End V.

(** ** With the table of the program: oxides as their own components *)
Definition oxides : Tab :=
  mkTab 19 0 19 (fun _ => false) (fun _ => 1%nat) (fun _ _ => 0) (fun _ _ => 0) (fun j o => if Nat.eqb j o then 1 else 0)
    (fun j o => if Nat.eqb j o then 1 else 0) (fun _ => 0) (fun _ => 1) (fun _ => 0) (fun _ => 0) (fun i => Nat.eqb i 3).
Lemma shaw_table : shawCoeff 0 = 0 /\ forall i, (i < 19)%nat -> 0 <= shawCoeff i.
Proof. split; [reflexivity|]. intros i Hi. do 19 (destruct i as [|i]; [cbn; num|]). lia. Qed.
Lemma oxides_q m i : (i < 19)%nat -> shawMoles oxides shawFactor m i = (if Rlt_dec 0 (shawFactor i) then m i * shawFactor i else m i).
Proof.
  intros Hi. unfold shawMoles. cbn [oxides nc liqToOx]. rewrite (sum_ext 19 _ (fun j => if Nat.eqb j i then m j else 0)) by (intros j Hj; destruct (j =? i); ring).
  rewrite (sum_one_f 19 i m). apply Nat.ltb_lt in Hi. now rewrite Hi.
Qed.

(** a basalt: silica, alumina, iron, magnesia, lime and 0.1 of water; with one mole more of water, or of silica *)
Definition basalt (i : nat) : R := match i with 0%nat => 5 | 2%nat => 1 | 5%nat => 1 | 7%nat => 2 | 10%nat => 1 | 14%nat => 1 | _ => 0 end.
Definition plus1 (w : nat) (m : nat -> R) (i : nat) : R := m i + (if Nat.eqb i w then 1 else 0).
Lemma basalt_q i : (i < 19)%nat -> shawMoles oxides shawFactor basalt i = match i with 2%nat => 2 | _ => basalt i end.
Proof. intros Hi. rewrite oxides_q by auto. do 19 (destruct i as [|i]; [cbn; destruct (Rlt_dec 0 _); num|]). lia. Qed.
Lemma basalt_silicate : silicate oxides shawFactor 0 basalt.
Proof.
  split.
  - intros i Hi. rewrite basalt_q by exact Hi. do 19 (destruct i as [|i]; [cbn; lra|]). cbn in Hi. lia.
  - cbn [oxides nc]. rewrite (sum_ext 19 _ (fun i => match i with 2%nat => 2 | _ => basalt i end)) by (intros i Hi; now apply basalt_q).
    rewrite basalt_q by lia. cbn. lra.
Qed.
Theorem C87_witness : silicate oxides shawFactor 0 basalt /\ more oxides shawFactor basalt (plus1 14 basalt) 14 1 /\
  (forall i, (i < 19)%nat -> i <> 0%nat -> shawMoles oxides shawFactor basalt i <> 0 -> shawCoeff 14 <= shawCoeff i) /\
  viscosity oxides shawCoeff shawFactor 0 1500 (plus1 14 basalt) <= viscosity oxides shawCoeff shawFactor 0 1500 basalt.
Proof.
  assert (B := basalt_silicate).
  assert (M : more oxides shawFactor basalt (plus1 14 basalt) 14 1).
  { intros i Hi. cbn [oxides nc] in Hi. rewrite !oxides_q by auto. unfold plus1. do 19 (destruct i as [|i]; [cbn; destruct (Rlt_dec 0 _); num|]). lia. }
  assert (L : forall i, (i < 19)%nat -> i <> 0%nat -> shawMoles oxides shawFactor basalt i <> 0 -> shawCoeff 14 <= shawCoeff i).
  { intros i Hi Ne Z. rewrite basalt_q in Z by auto. do 19 (destruct i as [|i]; [first [exfalso; apply Z; reflexivity | exfalso; now apply Ne | cbn; num]|]). lia. }
  split; [exact B|]. split; [exact M|]. split; [exact L|].
  destruct shaw_table as [C0 CP]. apply (C87_water_partial oxides shawCoeff shawFactor 0 ltac:(cbn; lia) C0 CP 1500 basalt (plus1 14 basalt) 14 1); auto; try lra; try (cbn; lia).
Qed.
Theorem C88_witness : more oxides shawFactor basalt (plus1 0 basalt) 0 1 /\
  viscosity oxides shawCoeff shawFactor 0 1500 basalt <= viscosity oxides shawCoeff shawFactor 0 1500 (plus1 0 basalt).
Proof.
  assert (M : more oxides shawFactor basalt (plus1 0 basalt) 0 1).
  { intros i Hi. cbn [oxides nc] in Hi. rewrite !oxides_q by auto. unfold plus1. do 19 (destruct i as [|i]; [cbn; destruct (Rlt_dec 0 _); num|]). lia. }
  split; [exact M|]. destruct shaw_table as [C0 CP].
  apply (C88_silica_partial oxides shawCoeff shawFactor 0 ltac:(cbn; lia) C0 CP 1500 basalt (plus1 0 basalt) 1); auto; try lra. apply basalt_silicate.
Qed.
(** the oxides Shaw left out count as nothing: water makes a silica - manganese liquid stiffer *)
Definition manganese (i : nat) : R := match i with 0%nat => 1 | 6%nat => 1 | _ => 0 end.
Theorem C87_refuted : silicate oxides shawFactor 0 manganese /\
  viscosity oxides shawCoeff shawFactor 0 1500 manganese < viscosity oxides shawCoeff shawFactor 0 1500 (plus1 14 manganese).
Proof.
  assert (Q : forall i, (i < 19)%nat -> shawMoles oxides shawFactor manganese i = manganese i).
  { intros i Hi. rewrite oxides_q by auto. do 19 (destruct i as [|i]; [cbn; destruct (Rlt_dec 0 _); num|]). lia. }
  assert (P : silicate oxides shawFactor 0 manganese).
  { split.
    - intros i Hi. rewrite Q by exact Hi. do 19 (destruct i as [|i]; [cbn; lra|]). cbn in Hi. lia.
    - cbn [oxides nc]. rewrite (sum_ext 19 _ manganese) by (intros i Hi; now apply Q). rewrite Q by lia. cbn. lra. }
  assert (M : more oxides shawFactor manganese (plus1 14 manganese) 14 1).
  { intros i Hi. cbn [oxides nc] in Hi. rewrite !oxides_q by auto. unfold plus1. do 19 (destruct i as [|i]; [cbn; destruct (Rlt_dec 0 _); num|]). lia. }
  split; [exact P|]. destruct shaw_table as [C0 CP]. assert (H0 : (0 < nc oxides)%nat) by (cbn; lia).
  pose proof (more_silicate oxides shawFactor 0 H0 _ _ 14 1 ltac:(cbn; lia) ltac:(lra) P M) as P'.
  pose proof (slope_eq oxides shawCoeff shawFactor 0 H0 _ P) as E. pose proof (slope_eq oxides shawCoeff shawFactor 0 H0 _ P') as E'.
  rewrite (more_weighted oxides shawCoeff shawFactor _ _ 14 1 ltac:(cbn; lia) M) in E'. rewrite (more_sum oxides shawFactor _ _ 14 1 ltac:(cbn; lia) M) in E'.
  rewrite (M 0%nat H0) in E'. replace (weighted oxides shawCoeff shawFactor manganese) with 0 in *.
  2: { unfold weighted. cbn [oxides nc]. symmetry. apply sum_0. intros i Hi. rewrite Q by auto. do 19 (destruct i as [|i]; [cbn; num|]). lia. }
  replace (sum (nc oxides) (shawMoles oxides shawFactor manganese)) with 2 in *.
  2: { cbn [oxides nc]. rewrite (sum_ext 19 _ manganese) by (intros i Hi; now apply Q). cbn. lra. }
  rewrite Q in E, E' by lia. cbn in E, E'. unfold viscosity. rewrite E, E'. apply Rmult_lt_compat_r; [apply Rinv_0_lt_compat, ln10|]. num.
Qed.
