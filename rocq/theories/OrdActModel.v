(** The activity functions actXxx of the solution phases with ordering
    parameters. The loops are the same in the eleven files; line numbers cite
    sources/cummingtonite.c and, with end members, sources/melilite.c. The
    exclusion criteria (mask FOURTH) are not modelled. Numbers are real. *)
From Coq Require Import Reals QArith Qreals NArith Arith List.
From Verif Require Import Sym SolnModel LaSpec OrdModel.
Import List ListNotations.

(** the tables fr, gs, dfrdr that actXxx fills in (OrdActData.v), the phase and its conversion function *)
Record ordAct : Type := mkAct {
  oa_ph : ordPhase; oa_con : conv; oa_fr : list (list expr); oa_gs : list (list expr); oa_dfr : list (list expr) }.

Local Open Scope R_scope.
(** R in J/K/mol, includes/silmin.h *)
Definition gasR : R := Q2R (83143 # 10000).
Section Act.
Variable A : ordAct.
Notation ph := (oa_ph A).
Variable sv : R -> R -> (nat -> R) -> nat -> R.
Variable slv : R -> R -> (nat -> R) -> vec -> vec.
(** pureXxx: ends 0 is the output mu0 (mask SECOND), a0 the output a0 (mask FIRST) *)
Variable ends : nat -> R -> R -> nat -> R.
Variable a0 : R -> R -> nat -> R.
Section At.
Variables (t p : R) (r : nat -> R).
Definition fr (i j : nat) : R := v2 ph sv t p r (oa_fr A) i j.
Definition gs (i j : nat) : R := v2 ph sv t p r (oa_gs A) i j.
Definition dfr (i j : nat) : R := v2 ph sv t p r (oa_dfr A) i j.
(** a[i] = g; for (j<NR) a[i] += fr[i][j]*dgdr[j]   (cummingtonite.c 1373, melilite.c 2099) *)
Definition aArg (i : nat) : R := og ph sv t p r + sum (o_nr ph) (fun j => fr i j * og_dx ph sv t p r j).
(** mask THIRD, the sum (cummingtonite.c 1414-1422, melilite.c 2155-2163) *)
Definition aSum (i k : nat) : R :=
  (1 + dfr i k) * og_dx ph sv t p r k
  + sum (o_nr ph) (fun j => fr i j * v2 ph sv t p r (o_rr ph) j k
      + sum (o_ns ph) (fun l => fr i j * v2 ph sv t p r (o_rs ph) j l * dsdr ph sv slv t p r l k))
  + sum (o_ns ph) (fun j => gs i j * v2 ph sv t p r (o_rs ph) k j
      + sum (o_ns ph) (fun l => gs i j * v2 ph sv t p r (o_ss ph) j l * dsdr ph sv slv t p r l k)).
End At.
(** mask SECOND: mu[i] (cummingtonite.c 1382, melilite.c 2116) *)
Definition actO_mu (i : nat) (t p : R) (r : nat -> R) : R :=
  match o_ends ph with None => aArg t p r i | Some _ => aArg t p r i - ends 0 t p i end.
(** mask FIRST: a[i] (cummingtonite.c 1373-1374, melilite.c 2099-2101) *)
Definition actO_a (i : nat) (t p : R) (r : nat -> R) : R :=
  let a := exp (aArg t p r i / (gasR * t)) in
  match o_ends ph with None => a | Some _ => if Req_EM_T (a0 t p i) 0 then a else a / a0 t p i end.
(** mask THIRD: dx[i][k] (cummingtonite.c 1410-1423, melilite.c 2150-2164) *)
Definition actO_dx (i k : nat) (t p : R) (r : nat -> R) : R := actO_a i t p r * (aSum t p r i k / (gasR * t)).
End Act.
