(** A case meeting the hypotheses of C166, and the cases C167-C169 in which the Hessian on an oxygen buffer is not one. *)
From Coq Require Import Reals List Lia Lra Bool Arith FunctionalExtensionality.
From Coquelicot Require Import Coquelicot.
From Verif Require Import MassModel MassSpec MassProofs RealTac LiqModel LiqProofs LiqProps StepModel StepProofs HessModel HessSpec HessPhase HessProps HessLiq HessInst OxyModel OxySpec OxyProps.
Import List ListNotations.
Open Scope R_scope.

(** *** C166: a liquid of three components, one absent, beside three solids *)
Definition qO : OxyL := mkOxyL (fun t p m => p * m 0%nat * m 2%nat + m 0%nat * m 0%nat)
  (fun t p m k => match k with 0%nat => p * m 2%nat + 2 * m 0%nat | 2%nat => p * m 0%nat | _ => 0 end)
  (fun t p m j k => match j, k with 0%nat, 0%nat => 2 | 0%nat, 2%nat => p | 2%nat, 0%nat => p | _, _ => 0 end)
  (fun t p m => m 0%nat * m 2%nat)
  (fun t p m k => match k with 0%nat => m 2%nat | 2%nat => m 0%nat | _ => 0 end)
  (fun t p m => 0).
Ltac ad := auto_derive; [auto|]; match goal with |- ?a = ?b => change (@eq R a b) end; try ring.
Lemma q_ok : oxyOK qO 3 (liqDomain 2).
Proof.
  constructor; cbn [qO oMu oM oMM oP oMP oPP].
  - intros m k. apply (sOpen _ _ _ (h_X 2 ltac:(lia))).
  - intros t p m k Ht D [H N]. destruct k as [|[|[|k]]]; try lia; unfold upd; cbn [Nat.eqb]; ad.
  - intros t p m j k Ht D [Hj Nj] [Hk Nk]. destruct j as [|[|[|j]]]; try lia; destruct k as [|[|[|k]]]; try lia; unfold upd; cbn [Nat.eqb]; ad.
  - intros t p m Ht D. ad.
  - intros t p m Ht D. ad.
  - intros t p m k Ht D [H N]. destruct k as [|[|[|k]]]; try lia; unfold upd; cbn [Nat.eqb]; ad.
Qed.
Definition qnu (i : nat) : R := INR i - 1.
Definition qU (md : Mode) : R -> R -> St -> R := openPotential hTab qnu qnu (hX 2) hStd (fun _ => hX 1) hStd md (oMu qO).
Definition qM (md : Mode) (oe : OxyE) (os : OxyS) : Mats :=
  gradHessO hTab md 1500 1000 (7 + if imposedMode md then 1 else 0) qnu qnu qO oe os (hX 2) hStd (fun _ => hX 1) hStd true hSt.
Theorem C166_witness oe os : layout hTab /\ counts hTab hSt /\ oxyOK qO 3 (liqDomain 2) /\
  is_derive (fun y => qU Plain 1500 1000 (setVar (VLiq 0 2) y hSt)) 2 (- mB (qM Plain oe os) 1) /\
  is_derive (fun x => Derive (fun y => qU Plain 1500 1000 (setVar (VLiq 0 0) y (setVar (VSol 2 1) x hSt))) 1) 0.5 (mE (qM Plain oe os) 0 5) /\
  is_derive (fun x => Derive (fun x => qU Isochoric 1500 x hSt) x) 1000 (mE (qM Isochoric oe os) 7 7).
Proof.
  split; [exact h_lay|split; [exact h_cnt|split; [exact q_ok|]]].
  assert (L : length (conVars hTab true hSt) = 7%nat) by (rewrite h_vars; reflexivity).
  assert (InL0 : liqDomain 2 (liqC hSt O)) by (apply h_inL; [reflexivity|cbn; lia]).
  split; [|split].
  - refine (C166_gradient hTab Plain 1500 1000 (hX 2) hStd (fun _ => hX 1) hStd 7 qnu qnu qO oe os (liqDomain 2) hDS (or_introl eq_refl) h_lay ltac:(lra) (h_X 2 ltac:(lia)) h_sols
      (fun j _ => simple_ok _ _ _) (fun i _ => simple_ok _ _ _) q_ok hSt h_cnt eq_refl eq_refl InL0 h_inS _ 1%nat (VLiq 0 2) _); rewrite ?L; [reflexivity|rewrite h_vars; reflexivity].
  - refine (C166_hessian hTab Plain 1500 1000 (hX 2) hStd (fun _ => hX 1) hStd 7 qnu qnu qO oe os (liqDomain 2) hDS h_lay ltac:(lra) (h_X 2 ltac:(lia)) h_sols
      (fun j _ => simple_ok _ _ _) (fun i _ => simple_ok _ _ _) q_ok hSt h_cnt eq_refl eq_refl InL0 h_inS _ 0%nat 5%nat (VLiq 0 0) (VSol 2 1) _ _); rewrite ?L; [reflexivity|rewrite h_vars; reflexivity|rewrite h_vars; reflexivity].
  - pose proof (C166_pressure_hessian hTab Isochoric 1500 1000 (hX 2) hStd (fun _ => hX 1) hStd 8 qnu qnu qO oe os (liqDomain 2) hDS h_lay ltac:(lra) (h_X 2 ltac:(lia)) h_sols
      (fun j _ => simple_ok _ _ _) (fun i _ => simple_ok _ _ _) q_ok hSt h_cnt eq_refl eq_refl InL0 h_inS) as K. rewrite L in K. exact (K eq_refl eq_refl).
Qed.

(** *** Nothing but the oxygen has energy *)
Definition noMix : Mixing :=
  let z1 := fun (_ _ : R) (_ : nat -> R) => 0 in let z2 := fun (_ _ : R) (_ : nat -> R) (_ : nat) => 0 in let z3 := fun (_ _ : R) (_ : nat -> R) (_ _ : nat) => 0 in
  mkMixing 0 (fun _ _ => 0) (fun _ _ _ => 0) (fun _ _ _ _ => 0) z1 z2 z3 z1 z2 z3 z1 z1 z2 z1 z2 z3 z1 z1 z2.
Lemma noMix_ok n : solutionOK noMix n (fun _ => True).
Proof.
  constructor; cbn [noMix xNr xR xDr xD2r xG xGx xGxx xS xSx xSxx xC xCt xCx xV xVx xVxx xVp xVpp xVxp sum].
  - intros. now exists (mkposreal 1 Rlt_0_1).
  - intros t p. split; [|split]; intros m m' _; reflexivity.
  - intros; lia.
  - intros; lia.
  - intros t p Ht. split; [intros m k D T; kc|intros m k i _ _ H; cbn in H; lia].
  - intros t p Ht. split; [intros m k D T; kc|intros m k i _ _ H; cbn in H; lia].
  - intros t p Ht. split; [intros m k D T; kc|intros m k i _ _ H; cbn in H; lia].
  - intros t p Ht m k D T; kc.
  - intros t p Ht m k D T; kc.
  - intros t p m Ht D. rewrite Ropp_0. kc.
  - intros t p m Ht D. replace (0 / t) with 0 by (field; lra). kc.
  - intros; kc.
  - intros; kc.
  - intros; kc.
  - intros; kc.
Qed.
Definition nil0 (_ : nat) : Std := simple 0 0 0.

(** ** C167: no liquid. One solid of two components, one mole of each; the potential of oxygen is the amount of the first, the
    second has one mole of oxygen to the mole. *)
Definition sTab : Tab :=
  mkTab 1 3 3 (fun i => match i with O => true | _ => false end) (fun i => match i with O => 2 | _ => 1 end)%nat
    (fun _ _ => 0) (fun _ _ => 0) (fun _ _ => 0) (fun _ _ => 0) (fun _ => 1) (fun _ => 1) (fun _ => 0) (fun _ => 0) (fun _ => false).
Definition sSt : St :=
  mkSt false 1 (fun _ _ => 0) (fun i => match i with O => 1 | _ => 0 end)%nat (fun i _ => match i with O => 2 | _ => 1 end) (fun _ => 1) (fun _ _ => 0) (fun _ => 0) 0 0 false.
Definition sNu (i : nat) : R := match i with 2%nat => 1 | _ => 0 end.
Definition sMuOf (s : St) : R := solC s 1 0.
Definition sOx : OxyS := mkOxyS 1 (fun k => match k with O => 1 | _ => 0 end) (fun _ _ => 0) 0 (fun _ => 0) 0.
Lemma s_vars : conVars sTab false sSt = [VSol 1 0; VSol 2 0].
Proof.
  unfold conVars, conLiquids. cbn [sTab nlc npc sSt nLiq seq flat_map conSolids nSol na Nat.ltb Nat.leb Nat.eqb Nat.add app].
  unfold onlyPresent, present. cbn [sSt liqC solC].
  repeat match goal with |- context[Req_EM_T ?a ?b] => destruct (Req_EM_T a b); [try (exfalso; lra)|try (exfalso; lra)] end. reflexivity.
Qed.
Definition sM0 (md : Mode) (ol : OxyL) (oe : OxyE) : Mats :=
  gradHessO sTab md 1500 1000 (2 + if imposedMode md then 1 else 0) sNu sNu ol oe sOx noMix nil0 (fun _ => noMix) nil0 false sSt.
Lemma z1f : zeroR 1 = false.
Proof. unfold zeroR. destruct (Req_EM_T 1 0); [lra|reflexivity]. Qed.
Ltac run := cbv -[Rplus Rmult Ropp Rdiv Rminus Rinv IZR ln zeroR INR].
Section Two.
Variables (tab : Tab) (md : Mode) (t p : R) (cc : nat) (nuS : nat -> R) (ol : OxyL) (oe : OxyE) (os : OxyS) (hasL : bool) (s : St) (nu : nat -> R) (B : Block).
Hypothesis N2 : bN B = 2%nat.
Hypothesis Z0 : zeroR (bM B 0) = false.
Hypothesis Z1 : zeroR (bM B 1) = false.
Definition row2 (j m : nat) (M : Mats) : Mats :=
  let M := addB (colRow M + m) 0 (addE (colRow M + m) (colRow M + 0) (bD2p B j 0) M) in
  addB (colRow M + m) 0 (addE (colRow M + m) (colRow M + 1) (bD2p B j 1) M).
Lemma fillRow_2 j m M : fillRow true B j m M = row2 j m M.
Proof. unfold fillRow. rewrite N2. cbn [loop]. rewrite Z0. cbv beta iota zeta. rewrite Z1. reflexivity. Qed.
Definition comp2 (j m : nat) (M : Mats) : Mats :=
  let M := addB (colRow M + m) (- bDp B j) M in
  let M := oxySol tab md t p cc nuS ol oe os hasL s (nu j) (colRow M + m) (colRow M) M in
  let M := row2 j m M in
  match tIndex md cc with Some i => addE i (colRow M + m) (bX B j) (addE (colRow M + m) i (bX B j) M) | None => M end.
Lemma fillRowsO_2 M : fillRowsO tab md t p cc nuS ol oe os hasL s nu B M = (comp2 1 1 (comp2 0 0 M), 2%nat).
Proof. unfold fillRowsO. rewrite N2. cbn [loop]. rewrite Z0. cbv beta iota. rewrite Z1. rewrite !fillRow_2. reflexivity. Qed.
End Two.
Lemma s_E md ol oe : md <> Isenthalpic -> mE (sM0 md ol oe) 0 1 = 0.
Proof.
  intros Hm. unfold sM0, gradHessO. cbn [sTab npc loop sSt nSol Nat.ltb Nat.leb na Nat.eqb].
  unfold fillMixO. rewrite fillRowsO_2; [|destruct md; reflexivity|destruct md; apply z1f|destruct md; apply z1f].
  destruct md; try (exfalso; apply Hm; reflexivity).
  - run. ring.
  - run. ring.
  - run. ring.
Qed.
Definition sU (md : Mode) (t p : R) (s : St) : R := potential sTab noMix nil0 (fun _ => noMix) nil0 md false t p s - oxygen sTab sNu sNu s * sMuOf s.
Definition sSt2 (a b : R) : St := setVar (VSol 1 0) a (setVar (VSol 2 0) b sSt).
Lemma s_U md t p a b : sU md t p (sSt2 a b) = - (b * a).
Proof. destruct md; unfold sU, sMuOf; run; ring. Qed.
Definition sDom (_ : nat -> R) : Prop := True.
Theorem C167_refuted md ol oe : md <> Isenthalpic ->
  layout sTab /\ counts sTab sSt /\ solutionOK noMix 2 sDom /\ (forall i, stdOK (nil0 i)) /\
  (* the potential of the oxygen and its derivatives are what the filling is given *)
  (sMuOf sSt = sMu sOx /\ forall k v, nth_error (conVars sTab false sSt) k = Some v ->
     is_derive (fun y => sMuOf (setVar v y sSt)) (valVar sSt v) (sM sOx k) /\
     forall l w, nth_error (conVars sTab false sSt) l = Some w -> forall x, is_derive (fun y => sMuOf (setVar v y (setVar w x sSt))) (valVar (setVar w x sSt) v) (sM sOx k) /\ sMM sOx k l = 0) /\
  (* the gradient is right *)
  (forall r v, nth_error (conVars sTab false sSt) r = Some v -> is_derive (fun y => sU md 1500 1000 (setVar v y sSt)) (valVar sSt v) (- mB (sM0 md ol oe) r)) /\
  (* the Hessian is not *)
  exists r c v w, nth_error (conVars sTab false sSt) r = Some v /\ nth_error (conVars sTab false sSt) c = Some w /\
    ~ is_derive (fun x => Derive (fun y => sU md 1500 1000 (setVar v y (setVar w x sSt))) (valVar (setVar w x sSt) v)) (valVar sSt w) (mE (sM0 md ol oe) r c).
Proof.
  intros Hm. rewrite s_vars.
  split.
  { intros i Hi Ph. destruct i as [|i]; [|discriminate]. split; [cbn; lia|]. intros _. split; [cbn; lia|]. intros j Hj. destruct j; [lia|reflexivity]. }
  split.
  { split; [|split]; intros i; destruct i as [|[|[|i]]]; cbn; auto; try discriminate; lia. }
  split; [apply noMix_ok|]. split; [intros; apply simple_ok|].
  assert (V : forall k v, nth_error [VSol 1 0; VSol 2 0] k = Some v -> (k = O /\ v = VSol 1 0) \/ (k = 1%nat /\ v = VSol 2 0)).
  { intros [|[|k]] v E; cbn in E; [injection E; auto|injection E; auto|destruct k; discriminate]. }
  split.
  { split; [reflexivity|]. intros k v E. apply V in E. split.
    - destruct E as [[E1 E2]|[E1 E2]]; subst; unfold sMuOf; cbn; ad.
    - intros l w E' x. apply V in E'. split; [|reflexivity]. destruct E as [[E1 E2]|[E1 E2]]; destruct E' as [[F1 F2]|[F1 F2]]; subst; unfold sMuOf; cbn; ad. }
  split.
  { assert (B : mB (sM0 md ol oe) 0 = 1 /\ mB (sM0 md ol oe) 1 = 1).
    { unfold sM0, gradHessO. cbn [sTab npc loop sSt nSol Nat.ltb Nat.leb na Nat.eqb].
      unfold fillMixO. rewrite fillRowsO_2; [|destruct md; reflexivity|destruct md; apply z1f|destruct md; apply z1f].
      destruct md; try (exfalso; apply Hm; reflexivity); run; split; ring. }
    intros r v E. apply V in E. destruct E as [[E1 E2]|[E1 E2]]; subst r v; [rewrite (proj1 B)|rewrite (proj2 B)].
    - apply (is_derive_ext (fun y => - (1 * y))); [|cbn; ad]. intros y. rewrite <- (s_U md 1500 1000 y 1). destruct md; unfold sU, sMuOf; run; ring.
    - apply (is_derive_ext (fun y => - (y * 1))); [|cbn; ad]. intros y. rewrite <- (s_U md 1500 1000 1 y). destruct md; unfold sU, sMuOf; run; ring. }
  exists 0%nat, 1%nat, (VSol 1 0), (VSol 2 0). split; [reflexivity|split; [reflexivity|]]. rewrite (s_E md ol oe Hm). intros K.
  assert (K' : is_derive (fun x => - x) 1 0).
  { refine (is_derive_ext _ _ _ _ _ K). intros x. apply is_derive_unique. apply (is_derive_ext (fun y => - (x * y))); [|cbn; ad].
    intros y. rewrite <- (s_U md 1500 1000 y x). reflexivity. }
  assert (K2 : is_derive (fun x => - x) 1 (-1)) by ad. apply is_derive_unique in K'. apply is_derive_unique in K2. rewrite K' in K2. lra.
Qed.

(** ** C168: two liquids of one component; the potential of oxygen in each is its amount. *)
Definition lTab : Tab :=
  mkTab 1 0 1 (fun _ => false) (fun _ => 1)%nat
    (fun _ _ => 0) (fun _ _ => 0) (fun _ _ => 0) (fun _ _ => 0) (fun _ => 1) (fun _ => 1) (fun _ => 0) (fun _ => 0) (fun _ => false).
Definition lSt (n : nat) : St :=
  mkSt true n (fun _ _ => 1) (fun _ => O) (fun _ _ => 0) (fun _ => 1) (fun _ _ => 0) (fun _ => 0) 0 0 false.
Definition lO : OxyL := mkOxyL (fun _ _ m => m O) (fun _ _ _ _ => 1) (fun _ _ _ _ _ => 0) (fun _ _ _ => 0) (fun _ _ _ _ => 0) (fun _ _ _ => 0).
Lemma lO_ok : oxyOK lO 1 sDom.
Proof.
  constructor; cbn [lO oMu oM oMM oP oMP oPP].
  - intros. now exists (mkposreal 1 Rlt_0_1).
  - intros t p m k Ht D [H N]. destruct k; [|lia]. unfold upd. cbn [Nat.eqb]. ad.
  - intros; kc.
  - intros; kc.
  - intros; kc.
  - intros; kc.
Qed.
Definition lM (md : Mode) (cc : nat) (oe : OxyE) (os : OxyS) (s : St) : Mats :=
  gradHessO lTab md 1500 1000 cc (fun _ => 1) (fun _ => 0) lO oe os noMix nil0 (fun _ => noMix) nil0 true s.
Lemma l_vars1 : conVars lTab true (lSt 1) = [VLiq 0 0].
Proof.
  unfold conVars, conLiquids. cbn [lTab nlc npc lSt nLiq seq flat_map conSolids app].
  unfold onlyPresent, present. cbn [lSt liqC]. destruct (Req_EM_T 1 0); [exfalso; lra|]. reflexivity.
Qed.
Lemma l_vars2 : conVars lTab true (lSt 2) = [VLiq 0 0; VLiq 1 0].
Proof.
  unfold conVars, conLiquids. cbn [lTab nlc npc lSt nLiq seq flat_map conSolids app].
  unfold onlyPresent, present. cbn [lSt liqC]. destruct (Req_EM_T 1 0); [exfalso; lra|]. reflexivity.
Qed.
Section One.
Variables (md : Mode) (cc : nat) (oe : OxyE) (os : OxyS) (s : St).
Notation blk nl := (liqBlock lTab md 1500 1000 noMix nil0 s nl).
Notation idx := (tIndex md cc).
Hypothesis Z : forall nl, zeroR (liqC s nl 0) = false.
Definition mix1 (nl : nat) (M : Mats) : Mats :=
  let M := addB (colRow M + 0) (- bDp (blk nl) 0) M in
  let M := addB (colRow M + 0) 0 (addE (colRow M + 0) (colRow M + 0) (bD2p (blk nl) 0 0) M) in
  let M := match idx with Some i => addE i (colRow M + 0) (bX (blk nl) 0) (addE (colRow M + 0) i (bX (blk nl) 0) M) | None => M end in
  let M := mkMats (mE M) (mB M) (colRow M + 1) in
  match idx with Some i => addE i i (bTT (blk nl)) (addB i (- bT (blk nl)) M) | None => M end.
Lemma fillMix_1 nl M : fillMix true idx (blk nl) M = mix1 nl M.
Proof.
  assert (N1 : bN (blk nl) = 1%nat) by (destruct md; reflexivity). assert (Z1 : zeroR (bM (blk nl) 0) = false) by (destruct md; apply (Z nl)).
  unfold fillMix, fillRows, fillRow. rewrite N1. cbn [loop]. rewrite Z1. reflexivity.
Qed.
Notation n := (mO2T lTab (fun _ => 1) (fun _ => 0) s).
Definition row1 (nl top : nat) (M : Mats) : Mats :=
  let m := liqC s nl in
  let M := addE2 idx top (oxyLiqX md 1500 1000 (fun _ => 1) lO oe n m 0) (addB top (oxyLiqB md 1500 1000 (fun _ => 1) lO oe n m 0) M) in
  let M := addE top top (oxyLiqE 1500 1000 (fun _ => 1) lO n m 0 0) M in
  loop (lastAmount md cc - colRow M) (fun q M =>
    let j := (colRow M + q)%nat in addE j top (- 1) (addE top j (- 1) M)) M.
Lemma row_1 nl top M : oxyLiqRow lTab md 1500 1000 cc (fun _ => 1) lO oe n (liqC s nl) top top 0 M = row1 nl top M.
Proof. unfold oxyLiqRow. cbn [lTab nlc loop]. rewrite (Z nl). reflexivity. Qed.
Lemma liquids_1 M : nLiq s = 1%nat -> oxyLiquids lTab md 1500 1000 cc (fun _ => 1) (fun _ => 0) lO oe s M = row1 0 0 M.
Proof. intros E. unfold oxyLiquids. rewrite E. cbn [lTab nlc loop]. rewrite (Z 0). cbn [fst]. apply row_1. Qed.
Lemma liquids_2 M : nLiq s = 2%nat -> oxyLiquids lTab md 1500 1000 cc (fun _ => 1) (fun _ => 0) lO oe s M = row1 1 1 (row1 0 0 M).
Proof. intros E. unfold oxyLiquids. rewrite E. cbn [lTab nlc loop]. rewrite (Z 0), (Z 1). cbn [fst]. now rewrite !row_1. Qed.
Lemma lM_1 : nLiq s = 1%nat -> lM md cc oe os s = oxyLast lTab md 1500 1000 cc (fun _ => 1) (fun _ => 0) lO oe os true s (row1 0 0 (mix1 0 (mkMats (fun _ _ => 0) (fun _ => 0) O))).
Proof. intros E. unfold lM, gradHessO. rewrite E. cbn [lTab npc loop]. now rewrite liquids_1, fillMix_1. Qed.
Lemma lM_2 : nLiq s = 2%nat -> lM md cc oe os s = oxyLast lTab md 1500 1000 cc (fun _ => 1) (fun _ => 0) lO oe os true s (row1 1 1 (row1 0 0 (mix1 1 (mix1 0 (mkMats (fun _ _ => 0) (fun _ => 0) O))))).
Proof. intros E. unfold lM, gradHessO. rewrite E. cbn [lTab npc loop]. now rewrite liquids_2, !fillMix_1. Qed.
End One.
Lemma zx x : x <> 0 -> zeroR x = false.
Proof. intros N. unfold zeroR. destruct (Req_EM_T x 0); [contradiction|reflexivity]. Qed.
Lemma set_z nl' n x : x <> 0 -> forall nl, zeroR (liqC (setVar (VLiq nl' 0) x (lSt n)) nl 0) = false.
Proof. intros N nl. cbn. unfold upd2. destruct (Nat.eqb nl nl'); cbn; [now apply zx|apply z1f]. Qed.
Lemma l_z n nl : zeroR (liqC (lSt n) nl 0) = false.
Proof. apply z1f. Qed.
Theorem C168_refuted oe os :
  oxyOK lO 1 sDom /\ solutionOK noMix 1 sDom /\ (forall i, stdOK (nil0 i)) /\ counts lTab (lSt 2) /\ conVars lTab true (lSt 2) = [VLiq 0 0; VLiq 1 0] /\
  is_derive (fun x => - mB (lM Plain 2 oe os (setVar (VLiq 1 0) x (lSt 2))) 0) 1 (-1) /\
  mE (lM Plain 2 oe os (lSt 2)) 0 1 = 0.
Proof.
  split; [exact lO_ok|split; [apply noMix_ok|split; [intros; apply simple_ok|split; [|split; [exact l_vars2|split]]]]].
  - split; [|split]; intros i; cbn; auto; try discriminate; lia.
  - apply (is_derive_ext_loc (fun x => - (1 + x + 1))).
    + exists (mkposreal (/ 2) ltac:(lra)). intros x Hx. change (Rabs (x - 1) < / 2) in Hx. assert (N : x <> 0) by (intros E; rewrite E in Hx; rewrite Rabs_left in Hx; lra).
      rewrite lM_2; [|apply set_z; exact N|reflexivity]. run. ring.
    + ad.
  - rewrite lM_2; [|apply l_z|reflexivity]. run. ring.
Qed.

(** ** C169: one liquid at imposed enthalpy or entropy. The potential in the gradient is that of the buffer. *)
Theorem C169_refuted md oe os : md = Isenthalpic \/ md = Isentropic ->
  oxyOK lO 1 sDom /\ solutionOK noMix 1 sDom /\ (forall i, stdOK (nil0 i)) /\ counts lTab (lSt 1) /\ conVars lTab true (lSt 1) = [VLiq 0 0] /\
  is_derive (fun x => - mB (lM md 2 oe os (setVar (VLiq 0 0) x (lSt 1))) 0) 1 0 /\
  mE (lM md 2 oe os (lSt 1)) 0 0 = - 2.
Proof.
  intros Hm. split; [exact lO_ok|split; [apply noMix_ok|split; [intros; apply simple_ok|split; [|split; [exact l_vars1|split]]]]].
  - split; [|split]; intros i; cbn; auto; try discriminate; lia.
  - apply (is_derive_ext_loc (fun x => - (match md with Isenthalpic => eMu oe / 1500 | _ => eMu oe end))); [|kc].
    exists (mkposreal (/ 2) ltac:(lra)). intros x Hx. change (Rabs (x - 1) < / 2) in Hx. assert (N : x <> 0) by (intros E; rewrite E in Hx; rewrite Rabs_left in Hx; lra).
    rewrite lM_1; [|apply set_z; exact N|reflexivity]. destruct Hm as [E|E]; rewrite E; destruct oe; run; field.
  - rewrite lM_1; [|apply l_z|reflexivity]. destruct Hm as [E|E]; rewrite E; destruct oe; run; field.
Qed.
