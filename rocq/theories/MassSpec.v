(** What "the amount of something in the system" means, independently of the
    program: sum it over all liquids and all instances of all solids. *)
From Coq Require Import Reals List Lia Lra Bool Arith.
From Verif Require Import MassModel.
Open Scope R_scope.

(** Something that can be counted: so much per mole of each solid component
    row and so much per mole of each liquid component. *)
Record Quantity : Type := mkQ { perSol : nat -> R; perLiq : nat -> R }.

(** An oxide (moles of oxide o), and a liquid component (moles of it, with
    solids expressed in liquid components). *)
Definition oxide (tab : Tab) (o : nat) : Quantity :=
  mkQ (fun c => solToOx tab c o) (fun j => liqToOx tab j o).
Definition component (tab : Tab) (k : nat) : Quantity :=
  mkQ (fun c => solToLiq tab c k) (fun j => if Nat.eqb j k then 1 else 0).

(** A pure phase (na = 1) is its own component row; a solution has the rows
    after it. *)
Definition componentRow (tab : Tab) (i c : nat) : Prop :=
  (na tab i = 1%nat /\ c = i) \/ ((1 < na tab i)%nat /\ (i < c <= i + na tab i)%nat).

(** Amount in column ns of phase i, in all solids, in all liquids. *)
Definition solidAmount (tab : Tab) (q : Quantity) (s : St) (i ns : nat) : R :=
  if Nat.eqb (na tab i) 1 then perSol q i * solC s i ns
  else sum (na tab i) (fun j => perSol q (i+1+j) * solC s (i+1+j)%nat ns).
Definition inSolids (tab : Tab) (q : Quantity) (s : St) : R :=
  sum (npc tab) (fun i => if isPhase tab i then sum (nSol s i) (solidAmount tab q s i) else 0).
Definition inLiquid (tab : Tab) (q : Quantity) (s : St) (nl : nat) : R :=
  sum (nlc tab) (fun j => perLiq q j * liqC s nl j).
Definition inLiquids (tab : Tab) (q : Quantity) (s : St) : R :=
  sum (nLiq s) (inLiquid tab q s).
Definition amount (tab : Tab) (q : Quantity) (s : St) : R := inSolids tab q s + inLiquids tab q s.

(** Amount in the fractionated store: solids kept per phase column, [cols i]
    columns of each phase, and liquid components. *)
Definition fracAmount (tab : Tab) (q : Quantity) (cols : nat -> nat) (s : St) : R :=
  sum (npc tab) (fun i => if isPhase tab i then
     sum (cols i) (fun ns => if Nat.eqb (na tab i) 1 then perSol q i * fracS s i ns
                   else sum (na tab i) (fun j => perSol q (i+1+j) * fracS s (i+1+j)%nat ns)) else 0)
  + sum (nlc tab) (fun j => perLiq q j * fracL s j).

(** The phases add up to the bulk composition. *)
Definition balanced (tab : Tab) (s : St) : Prop :=
  forall o, (o < nc tab)%nat -> bulk s o = amount tab (oxide tab o) s.

(** ** Assumptions on the tables *)

(** The rows of a solution follow its phase row and are not phases themselves
    (melts_support.c 308-313 computes na that way). *)
Definition layout (tab : Tab) : Prop :=
  forall i, (i < npc tab)%nat -> isPhase tab i = true ->
    (1 <= na tab i)%nat /\
    ((1 < na tab i)%nat -> (i + na tab i < npc tab)%nat /\
       forall j, (1 <= j <= na tab i)%nat -> isPhase tab (i + j) = false).

(** The same solid written in liquid components or directly gives the same
    amount of q. Holds by definition for [component]; for [oxide] it is a fact
    about the shipped tables. *)
Definition agrees (tab : Tab) (q : Quantity) : Prop :=
  forall c, (c < npc tab)%nat ->
    perSol q c = sum (nlc tab) (fun j => solToLiq tab c j * perLiq q j).

(** Converting oxides to liquid components and back is the identity. *)
Definition invertible (tab : Tab) : Prop :=
  forall m o, (o < nc tab)%nat ->
    sum (nlc tab) (fun j => sum (nc tab) (fun o' => m o' * oxToLiq tab o' j) * liqToOx tab j o) = m o.

(** Only phases are counted, and a pure phase at most once. *)
Definition counts (tab : Tab) (s : St) : Prop :=
  (forall i, isPhase tab i = false -> nSol s i = O) /\
  (forall i, na tab i = 1%nat -> (nSol s i <= 1)%nat) /\
  (forall i, (npc tab <= i)%nat -> nSol s i = O).

(** ** The solver used when there is no liquid *)

(** What corrections d remove from the solids that are present. *)
Definition drawn (tab : Tab) (q : Quantity) (s : St) (d : nat -> R) : R :=
  sum (npc tab) (fun i =>
    if isPhase tab i && negb (Nat.eqb (nSol s i) 0) then
      if Nat.eqb (na tab i) 1 then perSol q i * d i
      else sum (na tab i) (fun j => perSol q (i+1+j) * d (i+1+j)%nat)
    else 0).

(** The corrections supply exactly what is asked for, oxide by oxide. *)
Definition exactSolve (tab : Tab) (s : St) (delta d : nat -> R) : Prop :=
  forall o, (o < nc tab)%nat -> drawn tab (oxide tab o) s d = delta o.

(** The corrections are a least-squares answer, as an SVD solve returns. *)
Definition residual (tab : Tab) (s : St) (delta d : nat -> R) : R :=
  sum (nc tab) (fun o => (delta o - drawn tab (oxide tab o) s d) ^ 2).
Definition leastSquares (tab : Tab) (s : St) (delta d : nat -> R) : Prop :=
  forall d', residual tab s delta d <= residual tab s delta d'.
