(** Model of getAffinityAndComposition: sources/est_saturation_state.c 185-765.

    Simplifications: doubles are real numbers (DBL_MAX, the value *Fmin has before the first pass of modmrt, is a parameter);
    log of a nonpositive activity is 0 here and not a number in the code (the test of the composition comes first); the arrays
    allocated on the first call and the debugging output are left out. rqmcg (nash.c 475-577) is an arbitrary function [rq] of the
    matrix and the start. grad (707-738) reads the composition and the activities that the last call of func left behind;
    modmrt calls it only after a successful evaluation at the same point (nash.c 333-350, 374-391), so it is a function of that
    point. *)
From Coq Require Import Reals List Bool Arith.
From Verif Require Import MassModel LiqModel LaSpec LaBase HhModel QuadModel NashModel CoexModel CoexSolModel.
Import ListNotations.
Open Scope R_scope.
Section Est.
(** solids[index] (or the liquid): conversions and test in X, activity(FIRST) and activity(THIRD), gmix(THIRD) *)
Variable X : Solid.
Variable act : (nat -> R) -> nat -> R.
Variable dact : (nat -> R) -> nat -> nat -> R.
Variable hess : (nat -> R) -> mat.
Variable rq : nat -> mat -> vec -> option vec.
Variables t p : R.
(** contents of hVec before the call, DBL_MAX *)
Variable h0 : nat -> R.
Variable F0 : R.
(** the arguments: zeroX, muMinusMu0 *)
Variable zeroX : nat -> bool.
Variable muIn : nat -> R.
Notation na := (sNa X).
Notation nr := (sNr X).
(** 180; includes/silmin.h: R *)
Definition SCALE : R := 1000.
Definition Rg : R := 8.3143.
(** 241-244: the end-members with zero mole fraction, and nullList *)
Definition nullsE : list nat := filter zeroX (seq 0 na).
Definition presentE : list nat := filter (fun i => negb (zeroX i)) (seq 0 na).
Definition neE : nat := length nullsE.
Definition nzE : nat := length presentE.
Definition nullList (k : nat) : nat := nth k presentE 0%nat.
Definition mu (k : nat) : R := muIn (nullList k).
(** 429-444: the mole fractions of the ideal solution, by position in nullList *)
Definition guessF (i : nat) : R := exp (- (mu i - mu (nzE - 2)) / (Rg * t)).
Definition guessLast : R := let g := exp (- (mu (nzE - 2) - mu (nzE - 1)) / (Rg * t)) in g / (1 + g * (1 + MassModel.sum (nzE - 2) guessF)).
Definition guessX (i : nat) : R :=
  if (nzE =? 1)%nat then 1
  else if (i <? nzE - 2)%nat then guessF i * guessLast
  else if (i =? nzE - 2)%nat then guessLast
  else 1 - guessLast - MassModel.sum (nzE - 2) (fun j => guessF j * guessLast).
(** 425, 447: the affinity of the guess *)
Definition guessA : R := if (nzE =? 1)%nat then mu 0 / SCALE else (mu 0 + Rg * t * ln (guessX 0)) / SCALE.
(** 451-455: with zeros for the absent end-members. [place i] is the position of i in nullList *)
Definition place (i : nat) : nat := length (filter (fun j => negb (zeroX j)) (seq 0 i)).
Definition guessFull (i : nat) : R := if zeroX i then 0 else guessX (place i).
(** 458-464 *)
Definition guessR : nat -> R := sR X guessFull.
(** 252-264: the constraints and their decomposition *)
Definition rowsE : mat := fun k j => sDx X guessR (nth k nullsE k) j.
Definition frameE : mat * vec := conDecomp neE nr rowsE h0.
(** 271, 503, 547, 718: into the null space; 281, 513, 676: back *)
Definition toFreeE (x : nat -> R) : nat -> R := if (neE =? 0)%nat then x else projUp Row neE nr (fst frameE) (snd frameE) (fun _ => x) 0 1 0%nat.
Definition fromFreeE (x : nat -> R) : nat -> R := projDown Row neE nr (fst frameE) (snd frameE) (fun _ => x) 0 1 0%nat.
(** 273-274 *)
Definition yVec : nat -> R := snap (toFreeE guessR).
(** 672-678; 279-284, 511-516 *)
Definition liftE (b : nat -> R) : nat -> R :=
  let v := fun i => if (i <? neE)%nat then yVec i else b (i - neE)%nat in
  if (neE =? 0)%nat then v else snap (fromFreeE v).
(** 662-703 *)
Definition func (i : nat) (b : vec) : option R :=
  let tv := liftE b in
  if sTest X tv then Some ((- Rg * t * ln (act tv (nullList i)) + b (nzE - 1)%nat * SCALE - mu i) / SCALE) else None.
(** 707-738 *)
Definition grad (i : nat) (b : vec) : vec := fun j =>
  let tv := liftE b in
  if (j =? nzE - 1)%nat then 1 else - Rg * t * toFreeE (dact tv (nullList i)) (j + neE)%nat / (act tv (nullList i) * SCALE).
(** the free variables of composition r and affinity a: 271, 503, 547 and bVec[nr] *)
Definition packE (r : nat -> R) (a : R) : vec := fun k => if (k =? nzE - 1)%nat then a else toFreeE r (k + neE)%nat.
(** 276: reltest 1e-6, 250 passes; 472: small *)
Definition small : R := sqrt dblEps.
Definition fit (tol : R) (r : nat -> R) (a : R) (o : outv) : Prop := modmrt nzE nzE func grad tol 250 (packE r a) F0 o.

(** 492-499: the Hessian in the null space *)
Definition hessFree : mat :=
  let H := hess guessR in
  if (neE =? 0)%nat then H
  else let H1 := projUp Col neE nr (fst frameE) (snd frameE) H 0 nr in
       let H2 := projUp Row neE nr (fst frameE) (snd frameE) H1 neE nr in
       fun i j => H2 (neE + i)%nat (neE + j)%nat.
(** 506-508: the scale, as the code has it, and the scaled matrix *)
Definition hscale (n : nat) (H : mat) : R :=
  forUp 0 n (fun i s => forUp 0 n (fun j s => if Rlt_dec s (Rabs (H i j)) then H i j else s) s) dblEps.
Definition scaled (n : nat) (H : mat) : mat := fun i j => H i j / hscale n H.
(** 511-517: the direction of the search *)
Definition directionE (d : vec) : nat -> R :=
  if (neE =? 0)%nat then d else snap (fromFreeE (fun i => if (i <? neE)%nat then yVec i else d (i - neE)%nat)).
(** 742-765: the energy along the direction *)
Definition along (d : nat -> R) (lam : R) : option R :=
  let r := fun i => guessR i + lam * d i in if sTest X r then Some (sG X t p r) else None.
(** 524-533, 570-579: the search along the line; the value is finalR *)
Inductive lineE (d : nat -> R) : R -> R -> (nat -> R) -> Prop :=
| line_done l s o : min1d (along d) l s small 100 o -> code1 o <> BAD_INITIAL -> lineE d l s (fun i => guessR i + lastPoint o * d i)
| line_less l s o r : min1d (along d) l s small 100 o -> code1 o = BAD_INITIAL -> dblEps <= Rabs (obb o * (9 / 10)) ->
    lineE d (obb o * (9 / 10)) (ost o) r -> lineE d l s r
| line_stop l s o : min1d (along d) l s small 100 o -> code1 o = BAD_INITIAL -> Rabs (obb o * (9 / 10)) < dblEps ->
    lineE d l s (fun i => guessR i + lastPoint o * d i).
Definition good (o : outv) : bool := match codev o with SUCCESS => if Rle_dec (oF o) small then true else false | _ => false end.
Inductive outcome : Type := Failure | Success (r : nat -> R) (a : R).
(** 286, 303: what is handed back *)
Definition answer (o : outv) : outcome := Success (liftE (oB o)) (oB o (nzE - 1)%nat * SCALE).
(** 469-658: the second attempt. 560-562: bVec[nr] starts at the affinity of the guess, and at the second try at what the first left *)
Inductive solvus : outcome -> Prop :=
| solvus_none : rq (nr - neE) (scaled (nr - neE) hessFree) (fun k => toFreeE guessR (k + neE)%nat) = None -> solvus Failure
| solvus_one d r o : rq (nr - neE) (scaled (nr - neE) hessFree) (fun k => toFreeE guessR (k + neE)%nat) = Some d ->
    lineE (directionE d) 1 (1 / 10) r -> fit small r guessA o -> good o = true -> solvus (answer o)
| solvus_two d r o r' o' : rq (nr - neE) (scaled (nr - neE) hessFree) (fun k => toFreeE guessR (k + neE)%nat) = Some d ->
    lineE (directionE d) 1 (1 / 10) r -> fit small r guessA o -> good o = false ->
    lineE (directionE d) (-1) (-1 / 10) r' -> fit small r' (oB o (nzE - 1)%nat) o' ->
    solvus (if good o' then answer o' else Failure).
(** 185-392. liquidMode differs in the functions of X only *)
Inductive getAffinity : outcome -> Prop :=
| aff_bad : t <= 0 \/ p < 0 \/ na <> S nr \/ nzE = 0%nat -> getAffinity Failure
| aff_fail o : 0 < t -> 0 <= p -> na = S nr -> nzE <> 0%nat -> fit (/ 1000000) guessR guessA o -> codev o <> SUCCESS -> getAffinity Failure
| aff_good o : 0 < t -> 0 <= p -> na = S nr -> nzE <> 0%nat -> fit (/ 1000000) guessR guessA o -> codev o = SUCCESS -> oF o <= small -> getAffinity (answer o)
| aff_solvus o c : 0 < t -> 0 <= p -> na = S nr -> nzE <> 0%nat -> fit (/ 1000000) guessR guessA o -> codev o = SUCCESS -> small < oF o -> solvus c -> getAffinity c.
End Est.
