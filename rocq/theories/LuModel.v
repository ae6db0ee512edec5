(** Model of the packing LU wrapper in sources/melts_linalg.c. Entries are real
    numbers (rounding is not modelled), matrices are functions of row and
    column, a permutation of N things is the function giving its data array.
    The two routines of the GNU Scientific Library it calls for the actual
    factorisation are external: they are represented by what their manual
    promises ([gslLU], the triangular solves). *)
From Coq Require Import Reals Arith ZArith Bool List.
From Verif Require Import LaSpec.
Local Open Scope R_scope.

(** gsl_vector_isnull of row j of A, which has N columns (lines 51-52, 57-58,
    156-157): every entry compares equal to zero *)
Fixpoint rowNullTo (k : nat) (A : mat) (j : nat) : bool :=
  match k with O => true | S k' => rowNullTo k' A j && (if Req_EM_T (A j k') 0 then true else false) end.
Definition rowNull (N : nat) (A : mat) (j : nat) : bool := rowNullTo N A j.

(** N2-- on a size_t, 64 bits wide (line 44) *)
Definition decr (n : Z) : Z := ((n - 1) mod 2 ^ 64)%Z.

(** gsl_permutation_swap (p, j, i), lines 65 and 100 *)
Definition swapP (p : nat -> nat) (j i : nat) : nat -> nat :=
  fun k => if (k =? j)%nat then p i else if (k =? i)%nat then p j else p k.

(** the inner scan, lines 55-69: for i from the given index; [nl r] says
    whether row r of the matrix as passed in is null; since rows and p are
    swapped together (lines 64-65) the row now at i is row p(i) of it *)
Fixpoint scan (fuel : nat) (nl : nat -> bool) (p : nat -> nat) (i : nat) (N2 : Z) : option nat * Z :=
  match fuel with
  | O => (None, N2)
  | S f => if nl (p i) then scan f nl p (S i) (decr N2) else (Some i, N2)
  end.

(** the packing loop, lines 49-71, from row j; after a swap j = i, then j++ *)
Fixpoint packFrom (fuel N : nat) (nl : nat -> bool) (j : nat) (p : nat -> nat) (N2 : Z) : (nat -> nat) * Z :=
  match fuel with
  | O => (p, N2)
  | S f =>
    if (j <? N)%nat then
      if nl (p j) then
        match scan (N - S j) nl p (S j) (decr N2) with
        | (Some i, N2') => packFrom f N nl (S i) (swapP p j i) N2'
        | (None, N2') => packFrom f N nl (S j) p N2'
        end
      else packFrom f N nl (S j) p N2
    else (p, N2)
  end.
(** lines 47-71 *)
Definition pack (N : nat) (nl : nat -> bool) : (nat -> nat) * Z := packFrom N N nl 0 (fun k => k) (Z.of_nat N).

(** the unit lower and the upper triangle stored in one matrix *)
Definition lowerOf (LU : mat) : mat := fun i j => if (j <? i)%nat then LU i j else if (i =? j)%nat then 1 else 0.
Definition upperOf (LU : mat) : mat := fun i j => if (i <=? j)%nat then LU i j else 0.
Definition isPerm (n : nat) (p : nat -> nat) : Prop :=
  (forall i, (i < n)%nat -> (p i < n)%nat) /\ (forall i j, (i < n)%nat -> (j < n)%nat -> p i = p j -> i = j).
(** what gsl_linalg_LU_decomp promises: P A = L U, where row i of P A is row
    p(i) of A; partial pivoting keeps the multipliers at most 1 in size *)
Definition gslLU (n : nat) (A LU : mat) (p : nat -> nat) : Prop :=
  isPerm n p /\
  (forall i k, (i < n)%nat -> (k < n)%nat -> A (p i) k = sum n (fun j => lowerOf LU i j * upperOf LU j k)) /\
  (forall i j, (j < i)%nat -> (i < n)%nat -> Rabs (LU i j) <= 1).

(** lines 98-101: one swap after another, not the composition *)
Fixpoint swapsTo (m : nat) (p p2 : nat -> nat) : nat -> nat :=
  match m with O => p | S m' => let q := swapsTo m' p p2 in swapP q m' (p2 m') end.

Definition set2 (A : mat) (i k : nat) (v : R) : mat :=
  fun i' k' => if (i' =? i)%nat && (k' =? k)%nat then v else A i' k'.

(** melts_LU_decomp, lines 25-113: LU and p are a possible content of the
    matrix and of the permutation after the call, p2 the row order the library
    chose for the packed block (line 96). gsl_permute_vector (p, v) makes entry
    k of v the former entry p(k), so line 93 permutes columns. *)
Definition decompWith (N : nat) (A LU : mat) (p p2 : nat -> nat) : Prop :=
  let p1 := fst (pack N (rowNull N A)) in
  let N2 := snd (pack N (rowNull N A)) in
  let A1 := fun i k => A (p1 i) k in
  if (N2 <=? 1)%Z then
    (forall k, p k = p1 k) /\
    (forall i k, LU i k =
      let B := set2 A1 0 (p1 O) 0 in
      (if Req_EM_T (A1 O (p1 O)) 0 then B else set2 B 0 0 (1 / A1 O (p1 O))) i k)
  else if (N2 <? Z.of_nat N)%Z then
    exists B,
      gslLU (Z.to_nat N2) (fun i k => A1 i (p1 k)) B p2 /\
      (forall k, p k = swapsTo (Z.to_nat N2) p1 p2 k) /\
      (forall i k, LU i k = if (i <? Z.to_nat N2)%nat && (k <? Z.to_nat N2)%nat then B i k else A1 i (p1 k))
  else gslLU N A1 LU p /\ (forall k, p2 k = p k).
Definition decomp (N : nat) (A LU : mat) (p : nat -> nat) : Prop := exists p2, decompWith N A LU p p2.

(** lines 154-161 *)
Fixpoint nonNullRows (m N : nat) (LU : mat) : nat :=
  match m with O => O | S m' => (nonNullRows m' N LU + if rowNull N LU m' then 0 else 1)%nat end.

(** gsl_blas_dtrsv with CblasLower, CblasUnit on the leading n x n block, line
    180: entries are replaced from the top *)
Fixpoint lowerSolve (m : nat) (L : mat) (x : vec) : vec :=
  match m with
  | O => x
  | S i => let y := lowerSolve i L x in
           fun k => if (k =? i)%nat then y i - sum i (fun j => L i j * y j) else y k
  end.
(** gsl_blas_dtrsv with CblasUpper, CblasNonUnit, line 181: from the bottom;
    m rows are still to do of n. (A zero diagonal gives infinities in the
    code; the theorems assume there is none.) *)
Fixpoint upperSolve (m n : nat) (U : mat) (x : vec) : vec :=
  match m with
  | O => x
  | S i => upperSolve i n U
             (fun k => if (k =? i)%nat then (x i - sum (n - S i) (fun j => U i (S i + j)%nat * x (S i + j)%nat)) / U i i else x k)
  end.

(** gsl_permute_vector_inverse (p, x), line 187: entry p(i) becomes the former
    entry i *)
Fixpoint placeOf (m : nat) (p : nat -> nat) (k : nat) : nat :=
  match m with O => O | S i => if (p i =? k)%nat then i else placeOf i p k end.
Definition permuteInverse (N : nat) (p : nat -> nat) (x : vec) : vec :=
  fun k => x (placeOf N p k).

(** melts_LU_svx, lines 134-196 *)
Definition svx (N : nat) (LU : mat) (p : nat -> nat) (x : vec) : vec :=
  let N2 := nonNullRows N N LU in
  if (N2 <=? 1)%nat then
    fun k => if (k =? p O)%nat then x (p O) * LU O O else 0
  else if (N2 <? N)%nat then
    let y := upperSolve N2 N2 LU (lowerSolve N2 LU (fun k => x (p k))) in
    permuteInverse N p (fun j => if (j <? N2)%nat then y j else 0)
  else
    (* gsl_linalg_LU_svx, line 191: permute, then the two solves *)
    upperSolve N N LU (lowerSolve N LU (fun k => x (p k))).

(** melts_LU_solve, lines 115-132 *)
Definition solve (N : nat) (LU : mat) (p : nat -> nat) (b : vec) : vec := svx N LU p b.
