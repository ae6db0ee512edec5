(** The quadratic step of the minimisation: decomposition of the equality
    constraints (sources/equality_constraints.c 498-508), projection of the
    Hessian and gradient (sources/gradient_hessian.c 1256-1273, 1394-1416),
    solution of the projected system (sources/silmin.c 935-989) and reassembly
    of the solution (sources/silmin.c 1031-1032).

    The contents of the constraint matrix C, its right-hand side d, the Hessian
    E and the vector B = - gradient + Hessian * composition are inputs here:
    the code that fills them is not part of this model. Arithmetic is exact. *)
From Coq Require Import Reals ZArith Arith Bool.
From Verif Require Import LaSpec LaBase HhModel.
Local Open Scope R_scope.

(** equality_constraints.c 500: Householder decomposition of the rows of C, result C and hVector *)
Definition conDecomp (rows cols : nat) (C : mat) (h : vec) : mat * vec :=
  forUp 0 rows (fun i ch => let '(C', h') := householderSelf Row Row i (i + 1) cols (fst ch) i (snd ch i) (i + 1) rows in
                            (C', updv (snd ch) i h')) (C, h).
(** equality_constraints.c 504-508: yVector *)
Definition conSolve (rows : nat) (C : mat) (d y : vec) : vec :=
  forUp 0 rows (fun i y => updv y i (forUp 0 i (fun j x => x - C i j * y j) (d i) / C i i)) y.
(** the loops over the constraints, each a call in mode H2 on the rows of C: gradient_hessian.c 1264, 1398, 1404, 1410 upwards; silmin.c 1032 downwards *)
Definition projUp (o : side) (rows cols : nat) (C : mat) (h : vec) (M : mat) (from upto : nat) : mat :=
  forUp 0 rows (fun i M => let '(_, _, M') := householder Row o H2 i (i + 1) cols C i (h i) M from upto in M') M.
Definition projDown (o : side) (rows cols : nat) (C : mat) (h : vec) (M : mat) (from upto : nat) : mat :=
  forDown rows (fun i M => let '(_, _, M') := householder Row o H2 i (i + 1) cols C i (h i) M from upto in M') M.
(** gradient_hessian.c 1398-1416: the projected Hessian and right-hand side *)
Definition project (rows cols : nat) (C : mat) (h y : vec) (E B : mat) : mat * mat :=
  let E1 := projUp Col rows cols C h E 0 cols in
  let E2 := projUp Row rows cols C h E1 rows cols in
  let B1 := projUp Col rows cols C h B 0 1 in
  let B2 := forUp rows cols (fun i B => forUp 0 rows (fun j B => put Col B 0 i (B i 0%nat - E2 i j * y j)) B) B1 in
  (E2, B2).
(** silmin.c 951-954: scale = the largest magnitude, at least DBL_MIN *)
Definition maxAbs (x s : R) : R := if Rlt_dec s (Rabs x) then Rabs x else s.
Definition scaleOf (rows cols : nat) (E B : mat) (dblmin : R) : R :=
  forUp 0 (cols - rows) (fun i s => forUp 0 (cols - rows) (fun j s => maxAbs (E (i + rows)%nat (j + rows)%nat) s) (maxAbs (B (rows + i)%nat 0%nat) s)) dblmin.
(** silmin.c 955-965: the scaled system passed to hfti; &bMatrix[conRows] is the part of B from row conRows on.
    Result: B and the pseudorank. With conRows = conCols nothing is done (silmin.c 936). *)
Definition solveQuad (rows cols : nat) (E B : mat) (dblmin tol : R) (rn h g : vec) (p : nat -> nat) : mat * nat :=
  if (rows <? cols)%nat then
    let sc := scaleOf rows cols E B dblmin in
    let a := fun i j => E (i + rows)%nat (j + rows)%nat / sc in
    let b := fun i l => B (rows + i)%nat l / sc in
    let o := hfti a (cols - rows) (cols - rows) b 1 tol rn h g p in
    (fun i l => if (rows <=? i)%nat && (i <? cols)%nat && Nat.eqb l 0 then ob o (i - rows)%nat l else B i l, ok o)
  else (B, O).
(** silmin.c 1031-1032 *)
Definition reassemble (rows cols : nat) (C : mat) (h y : vec) (B : mat) : mat :=
  let B1 := forUp 0 rows (fun i B => put Col B 0 i (y i)) B in
  projDown Col rows cols C h B1 0 1.
(** one quadratic step: from the constraints and the quadratic function to the new solution vector, bMatrix[.][0], and the pseudorank.
    h0, y0, ... are the contents of the arrays before the call. *)
Definition quadStep (rows cols : nat) (C : mat) (d : vec) (E B : mat) (dblmin tol : R) (h0 y0 rn hh g : vec) (p : nat -> nat) : vec * nat :=
  let '(C', h) := conDecomp rows cols C h0 in
  let y := conSolve rows C' d y0 in
  let '(E2, B2) := project rows cols C' h y E B in
  let '(B3, k) := solveQuad rows cols E2 B2 dblmin tol rn hh g p in
  (column (reassemble rows cols C' h y B3) 0, k).
(** gradient_hessian.c 1258-1272: the Lagrange multipliers *)
Definition multipliers (rows cols : nat) (C : mat) (h : vec) (B : mat) (lam : vec) : vec :=
  let G0 := fun i (_ : nat) => - B i 0%nat in
  let G := projUp Col rows cols C h G0 0 1 in
  forDown rows (fun i lam =>
    let s := forDown (rows - (i + 1)) (fun q s => let j := (i + 1 + q)%nat in s - C i j * lam j) (G i 0%nat) in
    updv lam i (s / C i i)) lam.
