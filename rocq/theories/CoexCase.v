(** A liquid of two components that unmixes: a run of the test for a second liquid that adds one. *)
From Coq Require Import Reals List Bool Arith Lia Lra FunctionalExtensionality.
From Verif Require Import MassModel MassProofs LiqModel LiqProofs LiqProps LaSpec LaBase HhModel QuadModel NashModel NashSpec VmminProofs NashProofs NashProps CoexModel CoexSpec CoexFrame CoexProofs CoexProps CoexMore CoexGrad.
Import List ListNotations.
Open Scope R_scope.

Definition delta : R := reltest / 2.
Definition Wc : R := (2 * Rg * ln 20 - delta) * (21 / 19).
Definition WHc (_ _ : nat) : R := Wc.
Definition W0 (_ _ : nat) : R := 0.
Definition mc (_ : nat) : R := 1.
Notation gmixc := (gmix 1 WHc W0 W0 1 1).
Notation dgmixc := (dgmix 1 WHc W0 W0 1 1).

Lemma isZ_no x : x <> 0 -> isZ x = false.
Proof. unfold isZ. destruct (Req_EM_T x 0); [contradiction|reflexivity]. Qed.
Lemma g_eq x : 0 < x < 1 -> gmixc (fun _ => x) = Wc * (x * (1 - x)) + 2 * Rg * (x * ln x + (1 - x) * ln (1 - x)).
Proof.
  intros H. rewrite gmix_eq. unfold pairs, W, ent, WHc, W0. cbn [MassModel.sum xr Nat.ltb Nat.leb]. replace (1 - (0 + x)) with (1 - x) by ring. ring.
Qed.
Lemma dg_eq x : 0 < x < 1 -> dgmixc (fun _ => x) 0 = Wc * (1 - 2 * x) + 2 * Rg * (ln x - ln (1 - x)).
Proof.
  intros H. rewrite dgmix_eq by (try lia; lra). unfold slope, W, dent, WHc, W0. cbn [MassModel.sum xr Nat.eqb]. replace (1 - (0 + x)) with (1 - x) by ring. ring.
Qed.
Lemma ne0 : ne 1 mc = 0%nat.
Proof. unfold ne, nulls. cbn [seq filter]. unfold mc. rewrite isZ_no by lra. reflexivity. Qed.
Lemma present_c : present 1 mc = [0%nat; 1%nat].
Proof. unfold present. cbn [seq filter]. unfold mc. rewrite isZ_no by lra. reflexivity. Qed.
Lemma ref_c : rOf 1 mc = fun _ => 1 / 2.
Proof. apply functional_extensionality. intros i. unfold rOf, total, mc. cbn [MassModel.sum]. rewrite isZ_no by lra. lra. Qed.
Lemma start_c h0 : startFree 1 h0 mc 1 0 = 20 / 21.
Proof.
  unfold startFree. rewrite ne0. cbn [Nat.eqb]. unfold rOf, total, startOf. rewrite ne0. cbn [MassModel.sum Nat.eqb Nat.sub]. rewrite (isZ_no (mc 0)), (isZ_no (mc 1)) by (unfold mc; lra). cbn [INR].
  rewrite isZ_no by lra. lra.
Qed.
Lemma lift_c h0 y b : lift 1 h0 mc y b = fun i => b (i - 0)%nat.
Proof. unfold lift. rewrite ne0. reflexivity. Qed.
Lemma toFree_c h0 x : toFree 1 h0 mc x = x.
Proof. unfold toFree, projUp. rewrite ne0. reflexivity. Qed.
Lemma only0 f : gmixc f = gmixc (fun _ => f 0%nat).
Proof. rewrite !gmix_eq. unfold pairs, ent. cbn [MassModel.sum xr]. reflexivity. Qed.
Lemma only0d f : dgmixc f 0 = dgmixc (fun _ => f 0%nat) 0.
Proof. unfold dgmix, slope. cbn [MassModel.sum xr Nat.eqb]. reflexivity. Qed.
Lemma delta_pos : 0 < delta.
Proof. unfold delta. pose proof reltest_pos. lra. Qed.
Lemma ln_ratio a b : 0 < a -> 0 < b -> ln (a / b) = ln a - ln b.
Proof. intros A B. unfold Rdiv. rewrite ln_mult, ln_Rinv by (try apply Rinv_0_lt_compat; lra). ring. Qed.
Lemma grad_start : dgmixc (fun _ => 20 / 21) 0 = delta.
Proof.
  rewrite dg_eq by lra. replace (1 - 20 / 21) with (1 / 21) by lra. rewrite !ln_ratio, ln_1 by lra. unfold Wc. field.
Qed.
Lemma grad_ref : dgmixc (fun _ => 1 / 2) 0 = 0.
Proof. rewrite dg_eq by lra. replace (1 - 1 / 2) with (1 / 2) by lra. lra. Qed.
Lemma reltest_small : reltest < 1 / 1000.
Proof. unfold reltest, dblEps. rewrite <- (sqrt_square (1 / 1000)) by lra. apply sqrt_lt_1; [left; apply Rinv_0_lt_compat, pow_lt; lra|lra|lra]. Qed.
Lemma gap_start : gap 1 WHc W0 W0 1 1 (fun _ => 1 / 2) (fun _ => 20 / 21) < - reltest * Rabs (gmixc (fun _ => 1 / 2)).
Proof.
  unfold gap. cbn [MassModel.sum]. rewrite grad_ref, !g_eq by lra. replace (1 - 20 / 21) with (1 / 21) by lra. replace (1 - 1 / 2) with (1 / 2) by lra.
  rewrite !ln_ratio, ln_1 by lra. pose proof reltest_small as Sm. pose proof reltest_pos as Rp. pose proof delta_pos as Dp.
  assert (L2 : 1 / 2 < ln 2) by (pose proof ln_lt_2; lra). assert (L1 : ln 20 < ln 21) by (apply ln_increasing; lra).
  assert (L3 : 4 * ln 2 < ln 21).
  { replace (4 * ln 2) with (ln 16); [apply ln_increasing; lra|]. replace 16 with (2 * 2 * (2 * 2)) by ring. rewrite !ln_mult by lra. ring. }
  assert (L4 : ln 20 < 5 * ln 2).
  { replace (5 * ln 2) with (ln 32); [apply ln_increasing; lra|]. replace 32 with (2 * 2 * (2 * 2) * 2) by ring. rewrite !ln_mult by lra. ring. }
  assert (L5 : ln 2 < 1) by (rewrite <- (ln_exp 1); apply ln_increasing; [lra|]; pose proof (exp_ineq1 1 ltac:(lra)); lra).
  assert (L6 : 0 < ln 20) by (rewrite <- ln_1; apply ln_increasing; lra).
  unfold Wc, delta in *. unfold Rg. set (l2 := ln 2) in *. set (l20 := ln 20) in *. set (l21 := ln 21) in *. set (e := reltest) in *. clearbody l2 l20 l21 e.
  match goal with |- ?a < - e * Rabs ?b => assert (B : Rabs b <= 100) end.
  { apply Rabs_le. lra. }
  match goal with |- ?a < - e * Rabs ?b => assert (C : a < - (1 / 10)); [lra|]; assert (D : e * Rabs b <= 1 / 1000 * 100) by (apply Rmult_le_compat; [lra|apply Rabs_pos|lra|exact B]); replace (- e * Rabs b) with (- (e * Rabs b)) by ring; lra end.
Qed.
Lemma trial_c h0 : exists x, trial 1 WHc W0 W0 1 1 None h0 mc 1 (Some x).
Proof.
  set (y := fixed 1 h0 mc 1). set (F := fminfn 1 WHc W0 W0 1 1 None h0 mc y). set (G := fmingr 1 WHc W0 W0 1 1 None h0 mc y). set (b0 := fun k => startFree 1 h0 mc 1 (k + ne 1 mc)%nat).
  assert (B0 : b0 0%nat = 20 / 21) by (unfold b0; rewrite ne0; apply start_c).
  assert (Ev : evaluated 1 None (lift 1 h0 mc y b0) = Some (fun i => b0 (i - 0)%nat)).
  { unfold evaluated. rewrite lift_c. replace (feasibleR 1 (fun i => b0 (i - 0)%nat)) with true; [reflexivity|]. symmetry. apply feasibleR_spec. split.
    - intros i Hi. replace i with 0%nat by lia. cbn [Nat.sub]. rewrite B0. lra.
    - cbn [MassModel.sum Nat.sub]. rewrite B0. lra. }
  assert (Gp : gap 1 WHc W0 W0 1 1 (rOf 1 mc) (fun i => b0 (i - 0)%nat) = gap 1 WHc W0 W0 1 1 (fun _ => 1 / 2) (fun _ => 20 / 21)).
  { rewrite ref_c. unfold gap. rewrite (only0 (fun i => b0 (i - 0)%nat)). cbn [MassModel.sum Nat.sub]. rewrite B0. reflexivity. }
  set (v := gap 1 WHc W0 W0 1 1 (fun _ => 1 / 2) (fun _ => 20 / 21)) in *.
  assert (Fv : F b0 = Some v) by (unfold F, fminfn; rewrite Ev, Gp; reflexivity).
  assert (Gv : G b0 0%nat = delta).
  { unfold G, fmingr. rewrite Ev, toFree_c, ref_c, ne0. cbn [Nat.add]. rewrite (only0d (fun i => b0 (i - 0)%nat)). cbn [Nat.sub]. rewrite B0, grad_start, grad_ref. ring. }
  assert (Nz : nz 1 mc = 1%nat) by (unfold nz; rewrite ne0; reflexivity).
  set (d := direction 1 ident (G b0)). assert (Dv : d 0%nat = - delta) by (unfold d; rewrite VmminProofs.direction_eq; cbn [LaSpec.sum]; unfold ident; cbn [Nat.eqb]; rewrite Gv; ring).
  set (Bn := upto 1 (fun i => b0 i + 1 * d i) b0). pose proof delta_pos as Dp.
  assert (Cn : still 1 b0 Bn reltest = 1%nat).
  { unfold still, forUp. cbn [Nat.sub LaBase.repeat Nat.add]. unfold Bn, upto. cbn [Nat.ltb Nat.leb]. rewrite Dv.
    destruct (Rlt_dec _ _) as [|N]; [reflexivity|]. elim N. replace (b0 0%nat - (b0 0%nat + 1 * - delta)) with delta by ring. rewrite Rabs_pos_eq by lra. unfold delta. pose proof reltest_pos. lra. }
  exists (lift 1 h0 mc y Bn). exists 0, {| codev := SUCCESS; oB := Bn; oF := v |}. split.
  - rewrite Nz. unfold vmmin. fold y. fold F. fold G. fold b0. rewrite Fv. eapply runs_next.
    + unfold vmminInit. cbn [vmminStep]. cbv zeta. cbn [iters ilast gradcount gv Bv Fmin Bm]. cbn [Nat.eqb]. fold d.
      replace (10000 <? Z.of_nat 1)%Z with false by reflexivity.
      destruct (Rlt_dec _ 0) as [L|N]; [reflexivity|]. elim N. unfold forUp. cbn [Nat.sub LaBase.repeat Nat.add]. rewrite Dv, Gv. assert (0 < delta * delta) by nra. lra.
    + apply runs_done. cbn [vmminStep]. cbv zeta. cbn [Bv Fmin Bm cv gv tv Xv gradproj steplength gradcount ilast iters]. fold Bn. rewrite Cn. cbn [Nat.ltb Nat.leb Nat.eqb]. reflexivity.
  - cbn [codev oF oB]. rewrite ref_c. destruct (Rlt_dec v _) as [|N]; [reflexivity|]. elim N. exact gap_start.
Qed.
(** one mole of each of two components that repel each other: a second liquid is added, with the mass balance of C147 *)
Theorem C147_case : forall h0, proper_liquid 1 mc /\ exists liquids', check 1 WHc W0 W0 1 1 None h0 1 [mc] liquids' true /\
  length liquids' = 2%nat /\ (forall i, amount liquids' i = 1) /\ ~ stable 1 WHc W0 W0 (fun _ => 0) 1 1 mc.
Proof.
  intros h0. assert (Pm : proper_liquid 1 mc) by (split; unfold mc; intros; lra). split; [exact Pm|].
  destruct (trial_c h0) as (x & T). destruct (trial_total 1 WHc W0 W0 1 1 None h0 mc 0) as (c & T0).
  assert (S : exists z cs, searches 1 WHc W0 W0 1 1 None h0 mc (z :: cs)).
  { destruct c as [z|]; [exists z, [x], [Some z; Some x]|exists x, [], [None; Some x]]; rewrite present_c; (split; [repeat constructor; assumption|reflexivity]). }
  destruct S as (z & cs & S).
  assert (C : check 1 WHc W0 W0 1 1 None h0 1 [mc] (divide 1 (farthest 1 (rOf 1 mc) z cs) [mc]) true).
  { unfold check. destruct (Req_EM_T 1 0); [lra|]. destruct (Rle_dec 1 0); [lra|]. destruct (Rlt_dec 1 0); [lra|]. eexists. split; [apply scan_found; exact S|]. split; reflexivity. }
  eexists. split; [exact C|]. destruct (C147_balance 1 WHc W0 W0 1 1 None h0 1 [mc] _ ltac:(discriminate) C) as (A & B & _). split; [exact A|]. split.
  - intros i. rewrite B. unfold amount. cbn [fold_right]. unfold mc. ring.
  - intros St. assert (Sy : forall w, symmetric 1 (fun _ _ => w)) by (intros w i j _ _; reflexivity).
    destruct (C145_stable_liquids_are_kept 1 WHc W0 W0 1 1 h0 (fun _ => 0) 1 [mc] (divide 1 (farthest 1 (rOf 1 mc) z cs) [mc]) true (Sy Wc) (Sy 0) (Sy 0) ltac:(lia)) with (2 := C) as (E & _); [|discriminate E].
    intros q [<-|[]]. split; assumption.
Qed.
