(** C196-C198: viscosities of the shared library. *)
From Coq Require Import Reals QArith Qreals String Bool Arith Lia Lra FunctionalExtensionality.
From Verif Require Import MassModel MassSpec MassProofs InitModel InitProps Tables ElmTable GrdModel.
From Coq Require Import List. Import ListNotations.
Local Open Scope R_scope.

Section Props.
Variable omw : nat -> R.
Hypothesis omw_pos : forall o, (o < 19)%nat -> 0 < omw o.
Notation grd := (viscosityFromGRD omw).
Notation shaw := (viscosityFromShaw omw 19).

(** ** C196: only the proportions of the oxides matter *)
Lemma grdMoles_scale k ox i : grdMoles omw (fun o => k * ox o) i = k * grdMoles omw ox i.
Proof. do 10 (destruct i as [|i]; [cbn; unfold Rdiv; ring|]). cbn. unfold Rdiv. ring. Qed.
Lemma percent_scale k m i : 0 < k -> sum 11 m <> 0 -> percent (fun j => k * m j) i = percent m i.
Proof.
  intros K N. unfold percent. rewrite sum_scal. destruct (Req_EM_T (k * sum 11 m) 0) as [Z|]; [exfalso; apply Rmult_integral in Z; lra|].
  destruct (Req_EM_T (sum 11 m) 0); [contradiction|]. field. split; [exact N|lra].
Qed.
Theorem C196_grd t k ox : 0 < k -> sum 11 (grdMoles omw ox) <> 0 -> grd t (fun o => k * ox o) = grd t ox.
Proof.
  intros K N. unfold viscosityFromGRD. replace (percent (grdMoles omw (fun o => k * ox o))) with (percent (grdMoles omw ox)); [reflexivity|].
  apply functional_extensionality. intros i. rewrite <- (percent_scale k (grdMoles omw ox) i K N). unfold percent.
  assert (E : grdMoles omw (fun o => k * ox o) = fun j => k * grdMoles omw ox j) by (apply functional_extensionality; intros j; apply grdMoles_scale). now rewrite E.
Qed.
Lemma shawMoles_scale k ox i : shawMoles omw (fun o => k * ox o) i = k * shawMoles omw ox i.
Proof. unfold shawMoles. cbv zeta. destruct (Rlt_dec 0 (factor i)); unfold Rdiv; ring. Qed.
Theorem C196_shaw t k ox : 0 < k -> sum 19 (shawMoles omw ox) <> 0 -> shaw t (fun o => k * ox o) = shaw t ox.
Proof.
  intros K N. unfold viscosityFromShaw. replace (shawX omw 19 (fun o => k * ox o)) with (shawX omw 19 ox); [reflexivity|].
  apply functional_extensionality. intros i. unfold shawX.
  assert (E : shawMoles omw (fun o => k * ox o) = fun j => k * shawMoles omw ox j) by (apply functional_extensionality; intros j; apply shawMoles_scale).
  rewrite E, sum_scal. destruct (Req_EM_T (k * sum 19 (shawMoles omw ox)) 0) as [Z|]; [exfalso; apply Rmult_integral in Z; lra|].
  destruct (Req_EM_T (sum 19 (shawMoles omw ox)) 0); [contradiction|]. field. split; [exact N|lra].
Qed.

(** ** C197: nor does it matter in which oxide iron is counted, whatever the amounts *)
Definition sameIron (ox ox' : nat -> R) : Prop :=
  2 * (ox 3%nat / omw 3%nat) + ox 5%nat / omw 5%nat = 2 * (ox' 3%nat / omw 3%nat) + ox' 5%nat / omw 5%nat /\ forall o, o <> 3%nat -> o <> 5%nat -> ox o = ox' o.
Theorem C197_grd t ox ox' : sameIron ox ox' -> grd t ox = grd t ox'.
Proof.
  intros [F S]. unfold viscosityFromGRD. replace (grdMoles omw ox') with (grdMoles omw ox); [reflexivity|]. apply functional_extensionality. intros i.
  do 10 (destruct i as [|i]; [cbn; try (rewrite S by lia; reflexivity); unfold Rdiv in *; lra|]). cbn. now rewrite S by lia.
Qed.
Lemma shaw_values : forall j, (j < 19)%nat -> In (j, coeff j, factor j) [(0%nat, 0, 0); (1%nat, 4.5, 1); (2%nat, 6.7, 2); (3%nat, 3.4, 2); (4%nat, 0, 0); (5%nat, 3.4, 1); (6%nat, 0, 0); (7%nat, 3.4, 1);
  (8%nat, 0, 0); (9%nat, 0, 0); (10%nat, 4.5, 1); (11%nat, 2.8, 1); (12%nat, 2.8, 1); (13%nat, 0, 0); (14%nat, 2.0, 1); (15%nat, 0, 0); (16%nat, 0, 0); (17%nat, 0, 0); (18%nat, 0, 0)].
Proof. intros j Hj. do 19 (destruct j as [|j]; [cbn; tauto|]). lia. Qed.
Ltac fac := unfold shawMoles; cbv zeta; cbn [factor shawRow find shawModel fst snd String.eqb nth tbl_bulk Ascii.eqb Bool.eqb].
Lemma shawMoles_at ox : shawMoles omw ox 3 = 2 * (ox 3%nat / omw 3%nat) /\ shawMoles omw ox 5 = ox 5%nat / omw 5%nat.
Proof.
  unfold shawMoles. cbv zeta. change (factor 3) with 2. change (factor 5) with 1. split; destruct (Rlt_dec 0 _); lra.
Qed.
Theorem C197_shaw t ox ox' : sameIron ox ox' -> shaw t ox = shaw t ox'.
Proof.
  intros [F S]. destruct (shawMoles_at ox) as [A3 A5], (shawMoles_at ox') as [B3 B5].
  assert (E : forall i, i <> 3%nat -> i <> 5%nat -> shawMoles omw ox i = shawMoles omw ox' i) by (intros i N3 N5; unfold shawMoles; cbv zeta; now rewrite (S i N3 N5)).
  assert (T : sum 19 (shawMoles omw ox) = sum 19 (shawMoles omw ox')).
  { cbn [sum]. rewrite A3, A5, B3, B5. rewrite !E by lia. lra. }
  assert (X : forall i, i <> 3%nat -> i <> 5%nat -> shawX omw 19 ox i = shawX omw 19 ox' i) by (intros i N3 N5; unfold shawX; now rewrite T, E).
  assert (X35 : shawX omw 19 ox 3 + shawX omw 19 ox 5 = shawX omw 19 ox' 3 + shawX omw 19 ox' 5).
  { unfold shawX. rewrite T, A3, A5, B3, B5. unfold Rdiv in *. rewrite <- !Rmult_plus_distr_r. now rewrite F. }
  unfold viscosityFromShaw. cbv zeta. rewrite (X nSiO2) by discriminate.
  assert (W : sum 19 (fun i => coeff i * shawX omw 19 ox' nSiO2 * shawX omw 19 ox i) = sum 19 (fun i => coeff i * shawX omw 19 ox' nSiO2 * shawX omw 19 ox' i)).
  { cbn [sum]. rewrite (X 0%nat), (X 1%nat), (X 2%nat), (X 4%nat), (X 6%nat), (X 7%nat), (X 8%nat), (X 9%nat), (X 10%nat), (X 11%nat), (X 12%nat), (X 13%nat), (X 14%nat), (X 15%nat), (X 16%nat), (X 17%nat), (X 18%nat) by lia. change (coeff 3) with 3.4. change (coeff 5) with 3.4. 
    assert (K : forall a, 3.4 * a * shawX omw 19 ox 3%nat + 3.4 * a * shawX omw 19 ox 5%nat = 3.4 * a * shawX omw 19 ox' 3%nat + 3.4 * a * shawX omw 19 ox' 5%nat)
      by (intros a; rewrite <- !Rmult_plus_distr_l; now rewrite X35).
    specialize (K (shawX omw 19 ox' nSiO2)). revert K.
    repeat match goal with |- context [?c * ?a * shawX omw 19 ?o ?j] => generalize (c * a * shawX omw 19 o j); intro end. intros K. lra. }
  now rewrite W.
Qed.

(** ** C198 *)
(** Shaw's value falls as the temperature rises, for any amounts *)
Lemma coeff_nonneg j : (j < 19)%nat -> 0 <= coeff j /\ 0 <= factor j.
Proof. intros H. pose proof (shaw_values j H) as K. cbn [In] in K. repeat destruct K as [K|K]; try (injection K as _ <- <-; lra). destruct K. Qed.
Lemma shawMoles_nonneg ox i : (i < 19)%nat -> 0 <= ox i -> 0 <= shawMoles omw ox i.
Proof.
  intros H P. unfold shawMoles. cbv zeta. pose proof (omw_pos i H). assert (0 <= ox i / omw i) by (apply Rmult_le_pos; [exact P|apply Rlt_le, Rinv_0_lt_compat; lra]).
  destruct (Rlt_dec 0 (factor i)); [|assumption]. apply Rmult_le_pos; lra.
Qed.
Lemma sum_nonneg n f : (forall i, (i < n)%nat -> 0 <= f i) -> 0 <= sum n f.
Proof. induction n as [|n IH]; intros H; cbn [sum]; [lra|]. specialize (IH ltac:(intros; apply H; lia)). specialize (H n ltac:(lia)). lra. Qed.
Lemma sum_ge n f i : (forall i, (i < n)%nat -> 0 <= f i) -> (i < n)%nat -> f i <= sum n f.
Proof.
  induction n as [|n IH]; intros H Hi; [lia|]. cbn [sum]. pose proof (H n ltac:(lia)). destruct (Nat.eq_dec i n) as [->|].
  - pose proof (sum_nonneg n f ltac:(intros; apply H; lia)). lra.
  - specialize (IH ltac:(intros; apply H; lia) ltac:(lia)). lra.
Qed.
Lemma shawX_nonneg ox i : (forall o, (o < 19)%nat -> 0 <= ox o) -> (i < 19)%nat -> 0 <= shawX omw 19 ox i <= 1.
Proof.
  intros P Hi. assert (Q : forall i, (i < 19)%nat -> 0 <= shawMoles omw ox i) by (intros; apply shawMoles_nonneg; auto).
  pose proof (sum_nonneg 19 _ Q) as S. pose proof (sum_ge 19 _ i Q Hi) as G. specialize (Q i Hi). unfold shawX. destruct (Req_EM_T _ 0) as [Z|Z].
  - unfold Rdiv. rewrite Rinv_1, Rmult_1_r. lra.
  - split; [apply Rmult_le_pos; [exact Q|apply Rlt_le, Rinv_0_lt_compat; lra]|]. apply Rmult_le_reg_r with (sum 19 (shawMoles omw ox)); [lra|]. unfold Rdiv. rewrite Rmult_assoc, Rinv_l by exact Z. lra.
Qed.
Definition shawSlope (ox : nat -> R) : R :=
  sum 19 (fun i => coeff i * shawX omw 19 ox nSiO2 * shawX omw 19 ox i) / (if Rlt_dec (shawX omw 19 ox nSiO2) 1 then 1 - shawX omw 19 ox nSiO2 else 1).
Lemma slope_nonneg ox : (forall o, (o < 19)%nat -> 0 <= ox o) -> 0 <= shawSlope ox.
Proof.
  intros P. unfold shawSlope. apply Rmult_le_pos.
  - apply sum_nonneg. intros i Hi. destruct (coeff_nonneg i Hi). pose proof (shawX_nonneg ox i P Hi). pose proof (shawX_nonneg ox nSiO2 P ltac:(unfold nSiO2; lia)).
    apply Rmult_le_pos; [apply Rmult_le_pos|]; lra.
  - apply Rlt_le, Rinv_0_lt_compat. destruct (Rlt_dec _ 1); lra.
Qed.
Lemma ln10_pos : 0 < ln 10. Proof. rewrite <- ln_1. apply ln_increasing; lra. Qed.
Theorem C198_shaw ox t1 t2 : (forall o, (o < 19)%nat -> 0 <= ox o) -> 0 < t1 < t2 -> shaw t2 ox <= shaw t1 ox.
Proof.
  intros P T. pose proof (slope_nonneg ox P) as S. unfold viscosityFromShaw. cbv zeta. fold (shawSlope ox). pose proof ln10_pos as L.
  apply Rmult_le_compat_r; [apply Rlt_le, Rinv_0_lt_compat; exact L|].
  assert (10000 / t2 <= 10000 / t1) by (apply Rmult_le_compat_l; [lra|apply Rlt_le, Rinv_lt_contravar; [apply Rmult_lt_0_compat; lra|lra]]).
  assert (shawSlope ox * (10000 / t2 - 1.50) <= shawSlope ox * (10000 / t1 - 1.50)) by (apply Rmult_le_compat_l; lra). lra.
Qed.
(** the other one is positive, and falls where B > 0, above C *)
Theorem C198_grd_positive t ox : 0 < grd t ox.
Proof. apply exp_pos. Qed.
Theorem C198_grd ox t1 t2 : let x := percent (grdMoles omw ox) in 0 < grdB x -> grdC x < t1 < t2 -> grd t2 ox < grd t1 ox.
Proof.
  intros x B T. unfold viscosityFromGRD. cbv zeta. fold x. apply exp_increasing. apply Rmult_lt_compat_l; [exact ln10_pos|]. apply Rplus_lt_compat_l.
  apply Rmult_lt_compat_l; [exact B|]. apply Rinv_lt_contravar; [apply Rmult_lt_0_compat; lra|lra].
Qed.
Lemma one_oxide j i : percent (grdMoles omw (fun o => if Nat.eqb o j then omw j else 0)) i = 
  (if Req_EM_T (sum 11 (grdMoles omw (fun o => if Nat.eqb o j then omw j else 0))) 0 then grdMoles omw (fun o => if Nat.eqb o j then omw j else 0) i
   else 100 * grdMoles omw (fun o => if Nat.eqb o j then omw j else 0) i / sum 11 (grdMoles omw (fun o => if Nat.eqb o j then omw j else 0))).
Proof. unfold percent. destruct (Req_EM_T _ 0); [field|field; assumption]. Qed.
(** molten alumina gets more viscous with temperature *)
Theorem C198_refuted : exists ox, (forall o, 0 <= ox o) /\ forall t1 t2, 2000 < t1 < t2 -> grd t1 ox < grd t2 ox.
Proof.
  pose (ox := fun o => if Nat.eqb o 2 then omw 2 else 0). exists ox. pose proof (omw_pos 2 ltac:(lia)) as P2.
  split; [intros o; unfold ox; destruct (Nat.eqb o 2); lra|]. intros t1 t2 T.
  assert (M : forall i, grdMoles omw ox i = if Nat.eqb i 2 then 1 else 0).
  { intros i. unfold ox. do 11 (destruct i as [|i]; [cbn; unfold Rdiv; try (field; lra); ring|]). cbn. unfold Rdiv. ring. }
  assert (S : sum 11 (grdMoles omw ox) = 1) by (cbn [sum]; rewrite !M; cbn; ring).
  assert (X : forall i, percent (grdMoles omw ox) i = if Nat.eqb i 2 then 100 else 0).
  { intros i. unfold percent. rewrite S, M. destruct (Req_EM_T 1 0); [lra|]. destruct (Nat.eqb i 2); field. }
  assert (B : grdB (percent (grdMoles omw ox)) = -17330).
  { unfold grdB. rewrite !X. cbn [Nat.eqb]. replace (1 + 0) with 1 by ring. rewrite ln_1. lra. }
  assert (C : grdC (percent (grdMoles omw ox)) = 1570).
  { unfold grdC. rewrite !X. cbn [Nat.eqb]. replace (1 + 0) with 1 by ring. rewrite ln_1. lra. }
  unfold viscosityFromGRD. cbv zeta. rewrite B, C. apply exp_increasing. apply Rmult_lt_compat_l; [exact ln10_pos|]. apply Rplus_lt_compat_l.
  assert (/ (t2 - 1570) < / (t1 - 1570)) by (apply Rinv_lt_contravar; [apply Rmult_lt_0_compat; lra|lra]). unfold Rdiv. lra.
Qed.
(** ** C199: what is returned *)
(** the two models answer different things under one name: a viscosity, and its logarithm, which can be negative or 0 *)
Lemma silica_sum ox : (forall o, o <> 0%nat -> ox o = 0) -> forall i, i <> 0%nat -> shawMoles omw ox i = 0.
Proof. intros H i N. unfold shawMoles. cbv zeta. rewrite (H i N). destruct (Rlt_dec 0 (factor i)); unfold Rdiv; ring. Qed.
Theorem C199_refuted failure t : exists ox, (forall o, 0 <= ox o) /\ 0 < snd (getMeltsViscosity omw 19 failure "GRD" t ox) /\ snd (getMeltsViscosity omw 19 failure "Shaw" t ox) < 0.
Proof.
  pose (ox := fun o => if Nat.eqb o 0 then omw 0%nat else 0). exists ox. pose proof (omw_pos 0 ltac:(lia)) as P0.
  split; [intros o; unfold ox; destruct (Nat.eqb o 0); lra|]. unfold getMeltsViscosity. cbn [String.eqb Ascii.eqb Bool.eqb snd]. split; [apply C198_grd_positive|].
  assert (Z : forall i, i <> 0%nat -> shawMoles omw ox i = 0) by (apply silica_sum; intros o N; unfold ox; destruct (Nat.eqb_spec o 0); [contradiction|reflexivity]).
  assert (O : shawMoles omw ox 0 = 1). { unfold shawMoles. cbv zeta. change (factor 0) with 0. unfold ox. cbn [Nat.eqb]. destruct (Rlt_dec 0 0); [lra|]. field. lra. }
  assert (S : sum 19 (shawMoles omw ox) = 1) by (cbn [sum]; rewrite O, !Z by lia; ring).
  assert (X : forall i, shawX omw 19 ox i = if Nat.eqb i 0 then 1 else 0).
  { intros i. unfold shawX. rewrite S. destruct (Req_EM_T 1 0); [lra|]. destruct (Nat.eqb_spec i 0) as [->|N]; [rewrite O; field|rewrite Z by exact N; field]. }
  unfold viscosityFromShaw. cbv zeta. rewrite (MassProofs.sum_0 19).
  2:{ intros i Hi. rewrite !X. destruct i; [change (coeff 0) with 0|]; cbn [Nat.eqb]; ring. }
  replace ((0 / (if Rlt_dec (shawX omw 19 ox nSiO2) 1 then 1 - shawX omw 19 ox nSiO2 else 1) * (10000 / t - 1.5) - 6.4) / ln 10) with (- (6.4 * / ln 10)) by (unfold Rdiv; ring).
  pose proof (Rinv_0_lt_compat _ ln10_pos). lra.
Qed.
(** the failure flag is cleared for any viscosity but 0, and never set *)
Theorem C199_flag model t ox failure : let r := getMeltsViscosity omw 19 failure model t ox in
  (snd r <> 0 -> fst r = false) /\ (fst r = true -> failure = true) /\ (model = "GRD"%string -> fst r = false).
Proof.
  intros r. unfold r, getMeltsViscosity. cbn [fst snd]. set (v := if String.eqb model "GRD" then _ else _). split; [|split].
  - intros N. destruct (Req_EM_T v 0); [contradiction|reflexivity].
  - destruct (Req_EM_T v 0); [auto|discriminate].
  - intros ->. change v with (grd t ox). pose proof (C198_grd_positive t ox). destruct (Req_EM_T _ 0); [lra|reflexivity].
Qed.
End Props.
(** the weights of the tables are such weights *)
Theorem C196_case : exists m t, In m modes /\ initialised m t /\ (forall o, (o < 19)%nat -> 0 < omw t o) /\ nlc t = 19%nat.
Proof.
  assert (Hm : In mode_meltsFluid modes) by (right; right; left; reflexivity).
  destruct (C46_tables_exist _ Hm) as [t It]. exists mode_meltsFluid, t. split; [exact Hm|]. split; [exact It|]. split.
  - intros o Ho. apply (ElmTable.omw_pos _ t o It). rewrite (in_nc _ t It). vm_compute (length tbl_bulk). exact Ho.
  - rewrite (in_nlc _ t It). vm_compute. reflexivity.
Qed.
