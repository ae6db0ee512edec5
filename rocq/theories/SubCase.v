(** A solution of FeO and Fe2O3 to which C171 and C174 apply, and properties C172 and C173, which are false of the program. *)
From Coq Require Import Reals List Lia Lra Bool Arith.
From Verif Require Import MassModel MassSpec MassProofs HessModel SubModel SubSpec SubProofs SubRun SubProps.
Import ListNotations.
Open Scope R_scope.

Ltac ev := cbv -[Rplus Rmult Ropp Rdiv Rminus Rinv IZR ln zeroR INR Rpower Rmax Rlt_dec Req_EM_T Rabs pow].
Definition feo := 0%nat.
Definition fe2o3 := 1%nat.
Notation isFeO := (fun o => Nat.eqb o feo).
Definition diagS (a b c d : R) (k : nat) : R := match k with 0 => a | 1 => b | 2 => c | _ => d end.
Definition unitM (i k : nat) : R := if Nat.eqb i k then 1 else 0.

(** ** One solution, of FeO (row 1) and Fe2O3 (row 2) *)
Definition fTab : Tab := mkTab 0 3 2 (fun i => Nat.eqb i 0) (fun i => match i with 0 => 2 | _ => 1 end)%nat (fun _ _ => 0)
  (fun i o => match i, o with 1%nat, 0%nat => 1 | 2%nat, 1%nat => 1 | _, _ => 0 end) (fun _ _ => 0) (fun _ _ => 0) (fun _ => 0) (fun _ => 0)
  (fun i => match i with 1%nat => 1 / 2 | 2%nat => 3 / 2 | _ => 0 end) (fun _ => 0) (fun o => Nat.eqb o fe2o3).
Definition fSt : St := mkSt false 1 (fun _ _ => 0) (fun i => if Nat.eqb i 0 then 1 else 0)%nat
  (fun i k => match k with O => match i with 0%nat => 1 | 1%nat => 3 / 4 | 2%nat => 1 / 4 | _ => 0 end | _ => 0 end)
  (fun o => match o with 0%nat => 3 / 4 | 1%nat => 1 / 4 | _ => 0 end) (fun _ _ => 0) (fun _ => 0) 0 0 true.
(** ideal mixing *)
Definition fDat : Data := mkData (fun i _ _ => match i with 1%nat => 10 | _ => 20 end) (fun _ _ => 5) (fun _ _ _ m k => m k / (m 0%nat + m 1%nat)) (fun _ _ => true).
Definition fSvd : Svd := mkSvd unitM (diagS 10 (3 / 4) (1 / 4) 0) unitM.
Lemma z34 : zeroR (3 / 4) = false. Proof. apply zeroR_false. lra. Qed.
Lemma z14 : zeroR (1 / 4) = false. Proof. apply zeroR_false. lra. Qed.
Lemma z0 : zeroR 0 = true. Proof. apply zeroR_true. lra. Qed.
Lemma fIron : ironTable fTab feo fe2o3.
Proof. split; [discriminate|]. split; [cbn; auto|]. split; [cbn; auto|reflexivity]. Qed.
Lemma fCols : cols fTab fSt = [(1, 0); (2, 0)]%nat.
Proof. cbv -[Rdiv IZR zeroR]. rewrite z34, z14. reflexivity. Qed.
Lemma fOx : oxides fTab fSt = [0; 1]%nat.
Proof. cbv -[Rdiv IZR zeroR]. rewrite z34, z14. reflexivity. Qed.
Lemma fPresent i k : present fTab fSt i k <-> (i = 1%nat \/ i = 2%nat) /\ k = O.
Proof. rewrite <- cols_present, fCols. cbn. split; [intros [H|[H|[]]]; injection H as <- <-; auto|intros [[-> | ->] ->]; auto]. Qed.
Lemma fSensible : sensible fTab fSt.
Proof.
  split.
  - intros ph Hp Hn. destruct ph as [|[|[|ph]]]; cbn in Hp, Hn; try lia. split; [reflexivity|]. split; [cbn; auto|]. intros _ j Hj. reflexivity.
  - intros ph Hp Hn N. destruct ph as [|[|[|ph]]]; cbn in Hp, Hn, N; try lia.
  - intros i k o _ Ho B. destruct o as [|[|o]]; cbn in Ho, B; try lia; lra.
Qed.
Lemma fSvdOk : svdOf (svRows fTab fSt) (colsN fTab fSt) (svMat fTab fSt) fSvd.
Proof.
  unfold svRows, colsN, svMat, rowsN, colsN, weight, stM, colAt, SubModel.amount. rewrite fCols, fOx. cbn [length Nat.leb]. split.
  - intros i j Hi Hj. destruct i as [|[|[|i]]]; try lia; destruct j as [|[|[|j]]]; try lia; cbn; ring.
  - intros k l Hk Hl. destruct k as [|[|[|k]]]; try lia; destruct l as [|[|[|l]]]; try lia; cbn; ring.
  - intros k l Hk Hl. destruct k as [|[|[|k]]]; try lia; destruct l as [|[|[|l]]]; try lia; cbn; ring.
  - intros k Hk. right. destruct k as [|[|[|k]]]; try lia; cbn; lra.
Qed.
Definition fE (i k : nat) : R := match i, k with 1%nat, O => - 4 | 2%nat, O => 2 | _, _ => 0 end.
Lemma fOxidises : oxidises fTab feo fe2o3 fSt fE.
Proof.
  split.
  - intros i k H. rewrite fPresent in H. unfold fE. destruct i as [|[|[|i]]]; try reflexivity; destruct k; try reflexivity; exfalso; apply H; auto.
  - intros o Ho. destruct o as [|[|o]]; cbn in Ho; try lia; cbn; ring.
Qed.
Definition fPsi (o : nat) : R := match o with 0%nat => 10 + Rgas * 1000 * ln (3 / 4 / (3 / 4 + 1 / 4)) | _ => 20 + Rgas * 1000 * ln (1 / 4 / (3 / 4 + 1 / 4)) end.
Lemma fEquilibrium : inEquilibrium fTab fDat 1000 1 fPsi fSt.
Proof. intros i k H. apply fPresent in H. destruct H as [[E|E] ->]; rewrite E; unfold potentialOf; cbn; ring. Qed.
Lemma tiny : 1 / 10 ^ 16 <= 1 / 4.
Proof. unfold Rdiv. rewrite !Rmult_1_l. apply Rinv_le_contravar; [lra|]. replace 16%nat with (1 + 15)%nat by reflexivity. rewrite pow_add. pose proof (pow_R1_Rle 10 15 ltac:(lra)). lra. Qed.
Lemma fMeasurable : measurable fTab fDat 1000 1 fSt.
Proof. pose proof tiny. intros i k H1 _. apply fPresent in H1. destruct H1 as [[E|E] ->]; rewrite E; cbn -[pow]; [replace (3 / 4 / (3 / 4 + 1 / 4)) with (3 / 4) by field|replace (1 / 4 / (3 / 4 + 1 / 4)) with (1 / 4) by field]; lra. Qed.
Theorem C171_case : fst (muFirst fTab isFeO fDat 1000 1 None fSt fSvd) = (true, - 5 + (2 * 20 - 4 * 10) + Rgas * 1000 * (2 * ln (1 / 4) - 4 * ln (3 / 4))).
Proof.
  rewrite (C171_oxygen_potential fTab feo fe2o3 fIron fDat 1000 1 None fSt fSvd fE fPsi (Reached_none _ _) fSensible fSvdOk fOxidises fEquilibrium fMeasurable).
  unfold oxygenPotential. cbn [fPsi feo fe2o3 fDat dO2]. replace (3 / 4 / (3 / 4 + 1 / 4)) with (3 / 4) by field. replace (1 / 4 / (3 / 4 + 1 / 4)) with (1 / 4) by field. f_equal. ring.
Qed.

(** ** C172, refuted: a reaction that does not balance is taken all the same *)
(** one solid, of FeO and Fe2O3 in equal parts *)
Definition mTab : Tab := mkTab 0 1 2 (fun i => Nat.eqb i 0) (fun _ => 1%nat) (fun _ _ => 0)
  (fun i o => match i with O => 1 | _ => 0 end) (fun _ _ => 0) (fun _ _ => 0) (fun _ => 0) (fun _ => 0) (fun _ => 2) (fun _ => 0) (fun o => Nat.eqb o fe2o3).
Definition mSt : St := mkSt false 1 (fun _ _ => 0) (fun i => if Nat.eqb i 0 then 1 else 0)%nat
  (fun i k => match i, k with O, O => 1 | _, _ => 0 end) (fun o => 1) (fun _ _ => 0) (fun _ => 0) 0 0 false.
Definition mDat : Data := mkData (fun _ _ _ => 0) (fun _ _ => 0) (fun _ _ _ _ _ => 1) (fun _ _ => true).
Definition mSvd : Svd := mkSvd (fun i k => match k, i with 0%nat, 0%nat => 1 | 1%nat, 1%nat => / sqrt 2 | 1%nat, 2%nat => / sqrt 2 | _, _ => 0 end) (diagS 10 (sqrt 2) 0 0) unitM.
Lemma z1 : zeroR 1 = false. Proof. apply zeroR_false. lra. Qed.
Lemma sq2 : sqrt 2 * sqrt 2 = 2. Proof. apply sqrt_sqrt. lra. Qed.
Lemma sq2pos : 1 < sqrt 2. Proof. rewrite <- sqrt_1 at 1. apply sqrt_lt_1; lra. Qed.
Lemma half : / sqrt 2 * / sqrt 2 = 1 / 2.
Proof. rewrite <- Rinv_mult, sq2. field. Qed.
Lemma mCols : cols mTab mSt = [(0, 0)]%nat.
Proof. reflexivity. Qed.
Lemma mOx : oxides mTab mSt = [0; 1]%nat.
Proof. cbv -[Rdiv IZR zeroR]. rewrite z1. reflexivity. Qed.
Lemma mIron : ironTable mTab feo fe2o3.
Proof. split; [discriminate|]. split; [cbn; auto|]. split; [cbn; auto|reflexivity]. Qed.
Lemma mSensible : sensible mTab mSt.
Proof.
  split.
  - intros ph Hp Hn. destruct ph; cbn in Hp; try lia. split; [reflexivity|]. split; [cbn; auto|]. intros N. exfalso. apply N. reflexivity.
  - intros ph Hp Hn N. destruct ph; cbn in Hp; try lia. cbn. lra.
  - intros i k o _ Ho B. cbn in B. lra.
Qed.
Lemma mSvdOk : svdOf (svRows mTab mSt) (colsN mTab mSt) (svMat mTab mSt) mSvd.
Proof.
  pose proof sq2pos. pose proof half as Hh. assert (Q : / sqrt 2 * sqrt 2 = 1) by (apply Rinv_l; lra).
  unfold svRows, svMat, rowsN, colsN, weight, stM, colAt, SubModel.amount. rewrite mCols, mOx. cbn [length Nat.leb]. split.
  - intros i j Hi Hj. destruct i as [|[|[|i]]]; try lia; destruct j as [|[|j]]; try lia; cbn; try ring; rewrite Q; ring.
  - intros k l Hk Hl. destruct k as [|[|k]]; try lia; destruct l as [|[|l]]; try lia; cbn; try ring; rewrite Hh; lra.
  - intros k l Hk Hl. destruct k as [|[|k]]; try lia; destruct l as [|[|l]]; try lia; cbn; ring.
  - intros k Hk. right. destruct k as [|[|k]]; try lia; cbn; lra.
Qed.
Definition mPsi (o : nat) : R := match o with 0%nat => 1 | _ => - 1 end.
Lemma mEquilibrium : inEquilibrium mTab mDat 1000 1 mPsi mSt.
Proof. intros i k H. apply cols_present in H. rewrite mCols in H. destruct H as [H|[]]. injection H as <- <-. unfold potentialOf; cbn; ring. Qed.
Lemma mX j : (j < 2)%nat -> svX mTab isFeO mSt mSvd j = match j with O => - (1 / 10) | _ => - 1 end.
Proof.
  intros Hj. pose proof sq2pos. pose proof sq2 as Q. unfold svX, svRhs, rhs, rowsN, colsN. rewrite mCols, mOx. cbn [length Nat.leb]. unfold svSolve. cbn [sum svS mSvd diagS].
  destruct (Rlt_dec 10 (1 / 100000000)); [lra|]. destruct (Rlt_dec (sqrt 2) (1 / 100000000)); [lra|].
  destruct j as [|[|j]]; try lia; cbn; [field; lra|]. field_simplify; [|lra]. unfold pow. rewrite Rmult_1_r, Q. field.
Qed.
Lemma mReaction : exists d, reaction mTab isFeO mSt mSvd = Some d /\ d O = - 1 /\ d 1%nat = - 1.
Proof.
  assert (Ir : ironOxides mTab isFeO mSt = 2%nat) by (unfold ironOxides; rewrite mOx; reflexivity).
  unfold reaction. rewrite Ir. cbn [Nat.eqb]. pose proof (mX 0 ltac:(lia)) as X0. pose proof (mX 1 ltac:(lia)) as X1. cbv beta iota in X0, X1. rewrite X0.
  destruct (Req_EM_T (- (1 / 10)) 0); [lra|]. eexists. split; [reflexivity|]. unfold divideAll. cbn [weight colAt]. rewrite X0, X1. unfold SubModel.amount, colAt. rewrite mCols. cbn. split; field.
Qed.
(** The claim: an answer TRUE comes with the oxygen potential of the assemblage. It is false: the solid alone fixes no oxygen
    potential, and the program answers TRUE with a number all the same. Without iron it answers FALSE, which nobody looks at
    (silmin_support.c 1187), and an oxygen fugacity of 1 bar is reported. *)
Theorem C172_refuted : exists dat t p psi v, ironTable mTab feo fe2o3 /\ sensible mTab mSt /\ svdOf (svRows mTab mSt) (colsN mTab mSt) (svMat mTab mSt) mSvd /\
  inEquilibrium mTab dat t p psi mSt /\ measurable mTab dat t p mSt /\
  fst (muFirst mTab isFeO dat t p None mSt mSvd) = (true, v) /\ v <> oxygenPotential feo fe2o3 dat t p psi.
Proof.
  exists mDat, 1000, 1, mPsi, 0. split; [exact mIron|]. split; [exact mSensible|]. split; [exact mSvdOk|]. split; [exact mEquilibrium|]. split; [|split].
  - intros i k H I. apply cols_present in H. rewrite mCols in H. destruct H as [H|[]]. injection H as <- <-. discriminate.
  - destruct mReaction as (d & E & D0 & D1). unfold muFirst. change (noSolids mTab mSt) with false. cbv iota. unfold getReaction. cbn [reusable]. rewrite E. cbn [fst]. f_equal.
    unfold muReact. rewrite mCols. cbn [length nth]. unfold actOf. cbn [fst snd isPhase mTab Nat.eqb product sum dG dO2 mDat]. rewrite D0, D1. unfold Rpower. rewrite ln_1, !Rmult_0_r, exp_0, !Rmult_1_l, ln_1. ring.
  - unfold oxygenPotential. cbn. lra.
Qed.
Theorem C172_without_iron_refuted : forall tab io dat t p s f, ironOxides tab io s <> 2%nat -> noSolids tab s = false ->
  fst (muFirst tab io dat t p None s f) = (false, 0) /\ reported tab io dat t p None s f = 0.
Proof.
  intros tab io dat t p s f H N. assert (E : fst (muFirst tab io dat t p None s f) = (false, 0)).
  { unfold muFirst. rewrite N. unfold getReaction. cbn [reusable]. unfold reaction. apply Nat.eqb_neq in H. rewrite H. reflexivity. }
  split; [exact E|]. unfold reported. rewrite E. cbn. unfold Rdiv. ring.
Qed.

(** ** C173, refuted: away from equilibrium the potential depends on what was asked before *)
(** two forms of FeO and one of Fe2O3 *)
Definition hTab : Tab := mkTab 0 3 2 (fun i => true) (fun _ => 1%nat) (fun _ _ => 0)
  (fun i o => match i, o with 0%nat, 0%nat => 1 | 1%nat, 0%nat => 1 | 2%nat, 1%nat => 1 | _, _ => 0 end)
  (fun _ _ => 0) (fun _ _ => 0) (fun _ => 0) (fun _ => 0) (fun _ => 0) (fun _ => 0) (fun o => Nat.eqb o fe2o3).
Definition hSt (a b : R) : St := mkSt false 1 (fun _ _ => 0) (fun i => if Nat.ltb i 3 then 1 else 0)%nat
  (fun i k => match i, k with 0%nat, O => a | 1%nat, O => b | 2%nat, O => 1 | _, _ => 0 end)
  (fun o => match o with O => a + b | _ => 1 end) (fun _ _ => 0) (fun _ => 0) 0 0 false.
Definition hDat : Data := mkData (fun i _ _ => match i with 1%nat => 1 | _ => 0 end) (fun _ _ => 0) (fun _ _ _ _ _ => 1) (fun _ _ => true).
Definition hSvd (a b : R) : Svd := mkSvd (fun i k => match k, i with 0%nat, 0%nat => 1 | 1%nat, 1%nat => a / 5 | 1%nat, 2%nat => b / 5 | 2%nat, 3%nat => 1 | 3%nat, 1%nat => b / 5 | 3%nat, 2%nat => - (a / 5) | _, _ => 0 end)
  (diagS 10 5 1 0) unitM.
Section Two.
Variables a b : R.
Hypothesis Ha : 1 <= a.
Hypothesis Hb : 1 <= b.
Hypothesis Hab : a * a + b * b = 25.
Lemma hCols : cols hTab (hSt a b) = [(0, 0); (1, 0); (2, 0)]%nat.
Proof. reflexivity. Qed.
Lemma hOx : oxides hTab (hSt a b) = [0; 1]%nat.
Proof. assert (Z : zeroR (a + b) = false) by (apply zeroR_false; lra). cbv -[Rdiv Rplus IZR zeroR]. rewrite z1, Z. reflexivity. Qed.
Lemma hSensible : sensible hTab (hSt a b).
Proof.
  split.
  - intros ph Hp Hn. split; [reflexivity|]. split; [cbn; auto|]. intros N. exfalso. apply N. reflexivity.
  - intros ph Hp Hn N. destruct ph as [|[|[|ph]]]; cbn in Hp; try lia; cbn; lra.
  - intros i k o _ Ho B. destruct o as [|[|o]]; cbn in Ho, B; try lia; lra.
Qed.
Lemma hSvdOk : svdOf (svRows hTab (hSt a b)) (colsN hTab (hSt a b)) (svMat hTab (hSt a b)) (hSvd a b).
Proof.
  unfold svRows, svMat, rowsN, colsN, weight, stM, colAt, SubModel.amount. rewrite hCols, hOx. cbn [length Nat.leb]. split.
  - intros i j Hi Hj. destruct i as [|[|[|[|i]]]]; try lia; destruct j as [|[|[|[|j]]]]; try lia; cbn; try ring; field.
  - intros k l Hk Hl. destruct k as [|[|[|[|k]]]]; try lia; destruct l as [|[|[|[|l]]]]; try lia; cbn; try ring; try (field_simplify; lra);
      replace (a * a) with (25 - b * b) by lra; field.
  - intros k l Hk Hl. destruct k as [|[|[|[|k]]]]; try lia; destruct l as [|[|[|[|l]]]]; try lia; cbn; ring.
  - intros k Hk. destruct k as [|[|[|[|k]]]]; try lia; cbn; try (right; lra). left. reflexivity.
Qed.
Lemma hReaction : exists d, reaction hTab isFeO (hSt a b) (hSvd a b) = Some d /\ d O = - 1 /\ d 1%nat = - (4 * (a * a) / 25) /\ d 2%nat = - (4 * (b * b) / 25) /\ d 3%nat = 2.
Proof.
  assert (Ir : ironOxides hTab isFeO (hSt a b) = 2%nat) by (unfold ironOxides; rewrite hOx; reflexivity).
  assert (X : forall j, (j < 4)%nat -> svX hTab isFeO (hSt a b) (hSvd a b) j = match j with O => - (1 / 10) | 1%nat => - (4 * a / 25) | 2%nat => - (4 * b / 25) | _ => 2 end).
  { intros j Hj. unfold svX, svRhs, rhs, rowsN, colsN. rewrite hCols, hOx. cbn [length Nat.leb]. unfold svSolve. cbn [sum svS hSvd diagS].
    destruct (Rlt_dec 10 (1 / 100000000)); [lra|]. destruct (Rlt_dec 5 (1 / 100000000)); [lra|]. destruct (Rlt_dec 1 (1 / 100000000)); [lra|]. destruct (Rlt_dec 0 (1 / 100000000)); [|lra].
    destruct j as [|[|[|[|j]]]]; try lia; cbn; field. }
  unfold reaction. rewrite Ir. cbn [Nat.eqb]. pose proof (X 0%nat ltac:(lia)) as X0. pose proof (X 1%nat ltac:(lia)) as X1. pose proof (X 2%nat ltac:(lia)) as X2. pose proof (X 3%nat ltac:(lia)) as X3.
  cbv beta iota in X0, X1, X2, X3. rewrite X0. destruct (Req_EM_T (- (1 / 10)) 0); [lra|]. eexists. split; [reflexivity|]. unfold divideAll. cbn [weight]. unfold colAt, SubModel.amount. rewrite X0, X1, X2, X3, hCols. cbn. split; [field|]. split; [field|]. split; field.
Qed.
Lemma hMu d a' b' : d O = - 1 -> muReact hTab hDat 1000 1 (cols hTab (hSt a b)) d (hSt a' b') = d 2%nat.
Proof.
  intros D0. unfold muReact. rewrite hCols. cbn [length nth]. unfold actOf. cbn [fst snd isPhase hTab product sum dG dO2 hDat]. unfold Rpower. rewrite ln_1, !Rmult_0_r, exp_0, !Rmult_1_l, ln_1. ring.
Qed.
End Two.
(** The claim: the potential is a function of the state. It is false: the same state gives -64/25 in a new process, and
    -36/25 after a call with other amounts of the same solids. *)
Theorem C173_refuted : exists s f c, Reached hTab feo c /\ sensible hTab s /\ svdOf (svRows hTab s) (colsN hTab s) (svMat hTab s) f /\
  fst (muFirst hTab isFeO hDat 1000 1 None s f) = (true, - (64 / 25)) /\ fst (muFirst hTab isFeO hDat 1000 1 c s f) = (true, - (36 / 25)).
Proof.
  exists (hSt 3 4), (hSvd 3 4), (snd (muFirst hTab isFeO hDat 1000 1 None (hSt 4 3) (hSvd 4 3))). split; [|split; [|split; [|split]]].
  - apply Reached_first; [apply Reached_none|apply hSensible; lra|apply hSvdOk; lra].
  - apply hSensible; lra.
  - apply hSvdOk; lra.
  - destruct (hReaction 3 4) as (d & E & D0 & _ & D2 & _); try lra. unfold muFirst. change (noSolids hTab (hSt 3 4)) with false. cbv iota. unfold getReaction. cbn [reusable]. rewrite E. cbn [fst]. f_equal.
    rewrite (hMu 3 4 d 3 4 D0), D2. field.
  - destruct (hReaction 4 3) as (d & E & D0 & _ & D2 & _); try lra. unfold muFirst at 2. change (noSolids hTab (hSt 4 3)) with false. cbv iota. unfold getReaction. cbn [reusable]. rewrite E. cbn [snd].
    unfold muFirst. change (noSolids hTab (hSt 3 4)) with false. cbv iota. unfold getReaction.
    assert (Rs : reusable hTab (Some (mkCache (rowsN hTab (hSt 4 3)) (cols hTab (hSt 4 3)) d)) (hSt 3 4) = Some d).
    { unfold reusable, rowsN. cbn [cRows cCols cD]. rewrite !hCols, !hOx by lra. cbn [length Nat.eqb sameCols combine forallb fst snd andb]. unfold SubModel.amount. cbn [fst snd hSt solC].
      rewrite !Rabs_right by lra. destruct (Rlt_dec (5 / 1000000) 3); [|lra]. destruct (Rlt_dec (5 / 1000000) 4); [|lra]. destruct (Rlt_dec (5 / 1000000) 1); [|lra]. reflexivity. }
    rewrite Rs. cbn [fst]. f_equal. rewrite (hMu 3 4 d 3 4 D0), D2. field.
Qed.

(** ** A run to a buffer that takes a step *)
Lemma fReaction : exists d, reaction fTab isFeO fSt fSvd = Some d /\ d O = - 1 /\ d 1%nat = - 4 /\ d 2%nat = 2.
Proof.
  assert (Ir : ironOxides fTab isFeO fSt = 2%nat) by (unfold ironOxides; rewrite fOx; reflexivity).
  assert (X : forall j, (j < 3)%nat -> svX fTab isFeO fSt fSvd j = match j with O => - (1 / 10) | 1%nat => - (16 / 3) | _ => 8 end).
  { intros j Hj. unfold svX, svRhs, rhs, rowsN, colsN. rewrite fCols, fOx. cbn [length Nat.leb]. unfold svSolve. cbn [sum svS fSvd diagS].
    destruct (Rlt_dec 10 (1 / 100000000)); [lra|]. destruct (Rlt_dec (3 / 4) (1 / 100000000)); [lra|]. destruct (Rlt_dec (1 / 4) (1 / 100000000)); [lra|].
    destruct j as [|[|[|j]]]; try lia; cbn; field. }
  unfold reaction. rewrite Ir. cbn [Nat.eqb]. pose proof (X 0%nat ltac:(lia)) as X0. pose proof (X 1%nat ltac:(lia)) as X1. pose proof (X 2%nat ltac:(lia)) as X2.
  cbv beta iota in X0, X1, X2. rewrite X0. destruct (Req_EM_T (- (1 / 10)) 0); [lra|]. eexists. split; [reflexivity|]. unfold divideAll. cbn [weight]. unfold colAt, SubModel.amount. rewrite X0, X1, X2, fCols. cbn. split; [field|]. split; field.
Qed.
Lemma fMuAt s d x1 x2 : d O = - 1 -> d 1%nat = - 4 -> d 2%nat = 2 -> solC s 1 0 = x1 -> solC s 2 0 = x2 -> 0 < x1 -> 0 < x2 -> 1 / 10 ^ 16 <= x1 / (x1 + x2) -> 1 / 10 ^ 16 <= x2 / (x1 + x2) ->
  muReact fTab fDat 1000 1 [(1, 0); (2, 0)]%nat d s = - 5 + Rgas * 1000 * (2 * ln (x2 / (x1 + x2)) - 4 * ln (x1 / (x1 + x2))).
Proof.
  intros D0 D1 D2 E1 E2 P1 P2 T1 T2. unfold muReact. cbn [length]. rewrite (proj1 (ln_product 2 _ _)). unfold actOf. cbn [nth fst snd isPhase fTab Nat.eqb sum dG dO2 fDat phaseOf dAct Nat.sub Nat.add]. rewrite E1, E2.
  rewrite !Rmax_left by lra. rewrite D0, D1, D2. ring.
Qed.
Theorem C174_case : exists target c' s', Buffer fTab isFeO fDat 1000 1 None target fSt fSvd true c' s' /\ solC s' 1 0 = 1 / 2 /\ solC s' 2 0 = 3 / 8.
Proof.
  destruct fReaction as (d & E & D0 & D1 & D2). pose proof tiny as T.
  set (s1 := trialBy fTab [(1, 0); (2, 0)]%nat d (1 / 16) fSt).
  assert (E1 : solC s1 1 0 = 1 / 2) by (unfold s1, trialBy, newBulk, totals, runBy; cbn -[Rplus Rmult Rdiv IZR]; unfold upd2; cbn -[Rplus Rmult Rdiv IZR]; rewrite D1; field).
  assert (E2 : solC s1 2 0 = 3 / 8) by (unfold s1, trialBy, newBulk, totals, runBy; cbn -[Rplus Rmult Rdiv IZR]; unfold upd2; cbn -[Rplus Rmult Rdiv IZR]; rewrite D2; field).
  exists (muReact fTab fDat 1000 1 (cols fTab fSt) d s1), (Some (mkCache (rowsN fTab fSt) (cols fTab fSt) d)), s1. split; [|split; [exact E1|exact E2]].
  apply (Buffer_runs _ _ _ _ _ _ _ _ _ d); [reflexivity|unfold getReaction; cbn [reusable]; rewrite E; reflexivity|]. rewrite fCols.
  apply (Steps_step _ _ _ _ _ _ _ _ _ (1 / 16) (molesO2 fTab fSt - 1 / 16) s1).
  - assert (P16 : SqrtEps <= 1) by (unfold SqrtEps, DBL_EPSILON; rewrite <- sqrt_1; apply sqrt_le_1_alt; rewrite <- Rinv_1; apply Rinv_le_contravar; [lra|apply pow_R1_Rle; lra]).
    rewrite (fMuAt fSt d (3 / 4) (1 / 4) D0 D1 D2), (fMuAt s1 d (1 / 2) (3 / 8) D0 D1 D2 E1 E2); try reflexivity; try lra.
    replace (1 / 2 / (1 / 2 + 3 / 8)) with (4 / 7) by field. replace (3 / 8 / (1 / 2 + 3 / 8)) with (3 / 7) by field. replace (3 / 4 / (3 / 4 + 1 / 4)) with (3 / 4) by field. replace (1 / 4 / (3 / 4 + 1 / 4)) with (1 / 4) by field.
    assert (L : ln (1 / 4) < ln (3 / 7)) by (apply ln_increasing; lra). assert (L2 : ln (4 / 7) < ln (3 / 4)) by (apply ln_increasing; lra).
    assert (L3 : ln (3 / 7) - ln (1 / 4) >= 1 / 4).
    { assert (Q : ln (3 / 7) - ln (1 / 4) = ln (12 / 7)) by (replace (3 / 7) with (12 / 7 * (1 / 4)) by field; rewrite ln_mult by lra; ring). rewrite Q. apply Rle_ge, Rlt_le. rewrite <- (ln_exp (1 / 4)). apply ln_increasing; [apply exp_pos|].
      assert (X : exp (1 / 4) * exp (- (1 / 4)) = 1) by (rewrite <- exp_plus; replace (1 / 4 + - (1 / 4)) with 0 by ring; apply exp_0). pose proof (exp_ineq1_le (- (1 / 4))) as Y. pose proof (exp_pos (1 / 4)) as Z. nra. }
    apply (Rle_trans _ 1); [exact P16|]. rewrite Rabs_left1; unfold Rgas; lra.
  - apply Halve_ok. fold s1. unfold trialOk, molesO2, phasesOk. cbn -[Rplus Rmult Rdiv IZR Rminus]. destruct (Rlt_dec _ 0) as [K|_]; [exfalso; lra|]. cbn -[Rplus Rmult Rdiv IZR Rminus].
    rewrite D1, D2. destruct (Rlt_dec _ 0) as [K|_]; [exfalso; lra|]. destruct (Rlt_dec _ 0) as [K|_]; [exfalso; lra|]. reflexivity.
  - apply Steps_done. unfold Rminus. rewrite Rplus_opp_r, Rabs_R0. unfold SqrtEps, DBL_EPSILON. apply sqrt_lt_R0, Rinv_0_lt_compat, pow_lt. lra.
Qed.
