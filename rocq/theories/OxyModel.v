(** Model of the filling of the gradient and the Hessian when the oxygen fugacity is held on a buffer.

    Source: sources/gradient_hessian.c 517-545 (moles of oxygen), 614-660 (potentials), 690-788 (liquids), 826-918 and
    1064-1200 (solids), fo2Path != FO2_NONE, in all four modes. The parts of the loops that do not concern oxygen are those of
    HessModel.v.

    Simplifications: as in HessModel.v; hasNlCon is true whenever fo2Path != FO2_NONE (293), so that the products with the
    amounts are not added to bMatrix; muO2Liq and subSolidusmuO2 are functions of what they are given, with the potential of
    the oxygen at standard state (622, 640) already added; the auxiliary matrices eMatrixfO2, which only serve the
    multiplier terms, are left out. *)
From Coq Require Import Reals List Bool Arith.
From Verif Require Import MassModel HessModel.
Import ListNotations.
Open Scope R_scope.

(** muO2Liq, as it depends on temperature, pressure and the moles of the liquid: the potential, its derivatives by the moles,
    by pressure, and by both *)
Record OxyL : Type := mkOxyL {
  oMu : R -> R -> (nat -> R) -> R; oM : R -> R -> (nat -> R) -> nat -> R; oMM : R -> R -> (nat -> R) -> nat -> nat -> R;
  oP : R -> R -> (nat -> R) -> R; oMP : R -> R -> (nat -> R) -> nat -> R; oPP : R -> R -> (nat -> R) -> R }.
(** 643-660: the buffer, by temperature once and twice *)
Record OxyE : Type := mkOxyE { eMu : R; eT : R; eTT : R }.
(** subSolidusmuO2: the derivatives are indexed by column. [sX]: d2muO2Sdmdt or d2muO2Sdmdp; [sT], [sTT]: dmuO2Sdt, d2muO2Sdt2
    or dmuO2Sdp, d2muO2Sdp2 *)
Record OxyS : Type := mkOxyS { sMu : R; sM : nat -> R; sMM : nat -> nat -> R; sT : R; sX : nat -> R; sTT : R }.

Section Oxy.
Variable tab : Tab.
Variable md : Mode.
Variables t p : R.
Variable conCols : nat.
(** oxygen.liqToOx, oxygen.solToOx *)
Variable nuL : nat -> R.
Variable nuS : nat -> R.
Variable ol : OxyL.
Variable oe : OxyE.
Variable os : OxyS.
Notation idx := (tIndex md conCols).

(** 535-538 *)
Definition mO2S (s : St) : R :=
  sum (npc tab) (fun i => sum (nSol s i) (fun ns =>
    if Nat.eqb (na tab i) 1 then nuS i * solC s i ns else sum (na tab i) (fun j => nuS (i + 1 + j)%nat * solC s (i + 1 + j)%nat ns))).
(** 526-539 *)
Definition mO2T (s : St) : R := sum (nLiq s) (fun nl => sum (nlc tab) (fun i => nuL i * liqC s nl i)) + mO2S s.

Definition addE2 (i : option nat) (r : nat) (x : R) (M : Mats) : Mats :=
  match i with Some i => addE r i x (addE i r x M) | None => M end.
(** the last column used by an amount (733) *)
Definition lastAmount : nat := if imposedMode md then (conCols - 1)%nat else conCols.

(** 702-745: component i of liquid nl, in column k; the block starts at column top *)
Definition oxyLiqB (n : R) (m : nat -> R) (i : nat) : R :=
  match md with
  | Isenthalpic => nuL i * eMu oe / t
  | Isentropic => nuL i * eMu oe
  | _ => n * oM ol t p m i + nuL i * oMu ol t p m
  end.
Definition oxyLiqX (n : R) (m : nat -> R) (i : nat) : R :=
  match md with
  | Isenthalpic => nuL i * eMu oe / (t * t) - nuL i * eT oe / t
  | Isentropic => - nuL i * eT oe
  | _ => - n * oMP ol t p m i - nuL i * oP ol t p m
  end.
Definition oxyLiqE (n : R) (m : nat -> R) (i j : nat) : R := - nuL i * oM ol t p m j - nuL j * oM ol t p m i - n * oMM ol t p m i j.
Definition oxyLiqRow (n : R) (m : nat -> R) (top k i : nat) (M : Mats) : Mats :=
  let M := addE2 idx k (oxyLiqX n m i) (addB k (oxyLiqB n m i) M) in
  let '(M, _) := loop (nlc tab) (fun j Ml =>
    let '(M, l) := Ml in
    if zeroR (m j) then (M, l) else (addE k l (oxyLiqE n m i j) M, S l)) (M, top) in
  loop (lastAmount - colRow M) (fun q M =>
    let j := (colRow M + q)%nat in addE j k (- oM ol t p m i) (addE k j (- oM ol t p m i) M)) M.
(** 700-747 *)
Definition oxyLiquids (s : St) (M : Mats) : Mats :=
  fst (loop (nLiq s) (fun nl Mk =>
    let '(M, top) := Mk in
    loop (nlc tab) (fun i Mk =>
      let '(M, k) := Mk in
      if zeroR (liqC s nl i) then (M, k) else (oxyLiqRow (mO2T s) (liqC s nl) top k i M, S k)) (M, top)) (M, O)).
(** 751-788 *)
Definition oxyLastB (n mu mu1 : R) : R := match md with Isenthalpic => - n * mu / (t * t) + n * mu1 / t | _ => n * mu1 end.
Definition oxyLastE (n mu mu1 mu2 : R) : R :=
  match md with
  | Isenthalpic => - 2 * n * mu / (t * t * t) + 2 * n * mu1 / (t * t) - n * mu2 / t
  | _ => - n * mu2
  end.
Definition oxyLast (hasL : bool) (s : St) (M : Mats) : Mats :=
  match idx with
  | None => M
  | Some i =>
      if hasL then
        loop (nLiq s) (fun nl M =>
          let '(mu, mu1, mu2) := match md with
            | Isochoric => (oMu ol t p (liqC s nl), oP ol t p (liqC s nl), oPP ol t p (liqC s nl))
            | _ => (eMu oe, eT oe, eTT oe) end in
          addE i i (oxyLastE (mO2T s) mu mu1 mu2) (addB i (oxyLastB (mO2T s) mu mu1) M)) M
      else addE i i (oxyLastE (mO2S s) (sMu os) (sT os) (sTT os)) (addB i (oxyLastB (mO2S s) (sMu os) (sT os)) M)
  end.

(** *** A solid in row [row] with [nu] moles of oxygen to the mole *)
Definition mulE (r c : nat) (x : R) (M : Mats) : Mats := mkMats (upd2 (mE M) r c (mE M r c * x)) (mB M) (colRow M).
(** the number of columns of the liquids, as the loops 889-900 and 1128-1138 count them *)
Definition liqCols (s : St) : nat :=
  loop (nLiq s) (fun nl k => loop (nlc tab) (fun j k => if zeroR (liqC s nl j) then k else S k) k) O.
(** beside a liquid: 836, 850, 858, 880 and 889-900; 1072, 1088, 1099, 1115 and 1127-1138 *)
Definition oxySolB (s : St) (nu : R) : R :=
  match md with
  | Isenthalpic => nu * eMu oe / t
  | Isentropic => nu * eMu oe
  | _ => nu * oMu ol t p (liqC s O)
  end.
Definition oxySolX (s : St) (nu : R) : R :=
  match md with
  | Isenthalpic => nu * (eMu oe / (t * t) - eT oe / t)
  | Isentropic => - nu * eT oe
  | _ => - nu * oP ol t p (liqC s O)
  end.
Definition oxySolWith (s : St) (nu : R) (row : nat) (M : Mats) : Mats :=
  let M := addE2 idx row (oxySolX s nu) (addB row (oxySolB s nu) M) in
  loop (liqCols s) (fun k M => mulE k row nu (mulE row k nu M)) M.
(** without a liquid: 836-887 and 904-915; 1072-1125 and 1142-1151. [row]: colRow + m; [base]: colRow, which is what the second
    index of 1077, 1093, 1105 and 1120 is. *)
Definition per (x : R) : R := match md with Isenthalpic => x / t | _ => x end.
Definition oxySolX0 (s : St) (nu : R) (row : nat) : R :=
  match md with
  | Isenthalpic => nu * (sMu os / (t * t) - sT os / t) + mO2S s * (sM os row / (t * t) - sX os row / t)
  | _ => - nu * sT os - mO2S s * sX os row
  end.
Definition oxySolAlone (s : St) (nu : R) (row base : nat) (M : Mats) : Mats :=
  let M := addB row (per (nu * sMu os) + per (mO2S s * sM os row)) M in
  let M := loop (conCols - 1) (fun k M => addE k base (per (- nu * sM os k)) (addE row k (per (- nu * sM os k)) M)) M in
  let M := addE2 idx row (oxySolX0 s nu row) M in
  loop lastAmount (fun k M => addE row k (- per (mO2S s * sMM os row k)) M) M.
Definition oxySol (hasL : bool) (s : St) (nu : R) (row base : nat) (M : Mats) : Mats :=
  if hasL then oxySolWith s nu row M else oxySolAlone s nu row base M.

(** *** The loops over the solids with the oxygen put in *)
Section FillO.
Variable hasL : bool.
Variable s : St.
(** 1064-1200 *)
Definition fillRowsO (nu : nat -> R) (B : Block) (M : Mats) : Mats * nat :=
  loop (bN B) (fun j Mm =>
    let '(M, m) := Mm in
    if zeroR (bM B j) then (M, m)
    else let M := addB (colRow M + m) (- bDp B j) M in
         let M := oxySol hasL s (nu j) (colRow M + m) (colRow M) M in
         let M := fillRow true B j m M in
         let M := match idx with Some i => addE i (colRow M + m) (bX B j) (addE (colRow M + m) i (bX B j) M) | None => M end in
         (M, S m)) (M, O).
Definition fillMixO (nu : nat -> R) (B : Block) (M : Mats) : Mats :=
  let '(M, m) := fillRowsO nu B M in
  let M := mkMats (mE M) (mB M) (colRow M + m) in
  match idx with Some i => addE i i (bTT B) (addB i (- bT B) M) | None => M end.
(** 793-918 *)
Definition fillPureO (nu : R) (B : Block) (M : Mats) : Mats :=
  let M := addB (colRow M) (- bDp B O) M in
  let M := match idx with
           | Some i => addE i i (bTT B) (addE i (colRow M) (bX B O) (addE (colRow M) i (bX B O) (addB i (- bT B) M)))
           | None => M end in
  let M := oxySol hasL s nu (colRow M) (colRow M) M in
  mkMats (mE M) (mB M) (S (colRow M)).
End FillO.

(** ** getProjGradientAndHessian up to line 1200, fo2Path != FO2_NONE *)
Variable liqX : Mixing.
Variable liqStd : nat -> Std.
Variable solX : nat -> Mixing.
Variable solStd : nat -> Std.
Definition gradHessO (hasL : bool) (s : St) : Mats :=
  let M := mkMats (fun _ _ => 0) (fun _ => 0) O in
  let M := if hasL then loop (nLiq s) (fun l => fillMix true idx (liqBlock tab md t p liqX liqStd s l)) M else M in
  let M := if hasL then oxyLiquids s M else M in
  let M := oxyLast hasL s M in
  loop (npc tab) (fun i M =>
    if Nat.ltb 0 (nSol s i) then
      if Nat.eqb (na tab i) 1 then fillPureO hasL s (nuS i) (pureBlock md t p (solStd i) (fun _ => solC s i O)) M
      else loop (nSol s i) (fun n => fillMixO hasL s (fun j => nuS (i + 1 + j)%nat) (solBlock tab md t p solX solStd s i n)) M
    else M) M.
End Oxy.
