(** What the gradient and the Hessian of a minimisation step ought to be: the energy of the whole system as a function of
    the moles in it, and what a consistent solution model is. Independent of the filling loops. *)
From Coq Require Import Reals List Bool Arith.
From Coquelicot Require Import Coquelicot.
From Verif Require Import MassModel StepModel HessModel.
Import List ListNotations.
Open Scope R_scope.

(** ** The energy of a system *)
(** a solution of n components: moles of solution times the property of mixing per mole, plus the pure components *)
Definition mixTotal (n : nat) (r : (nat -> R) -> nat -> R) (F : (nat -> R) -> R) (q : nat -> R) (m : nat -> R) : R :=
  sum n m * F (r m) + sum n (fun i => m i * q i).

Section System.
Variable tab : Tab.
Variable liqX : Mixing.
Variable liqStd : nat -> Std.
Variable solX : nat -> Mixing.
Variable solStd : nat -> Std.

(** an extensive property of all liquids and solids, F of mixing and q of the pure components *)
Definition property (F : Mixing -> R -> R -> (nat -> R) -> R) (q : Std -> R -> R -> R) (hasL : bool) (t p : R) (s : St) : R :=
  (if hasL then sum (nLiq s) (fun nl => mixTotal (nlc tab) (xR liqX) (F liqX t p) (fun j => q (liqStd j) t p) (liqC s nl)) else 0)
  + sum (npc tab) (fun i => sum (nSol s i) (fun n =>
      if Nat.eqb (na tab i) 1 then solC s i n * q (solStd i) t p
      else mixTotal (na tab i) (xR (solX i)) (F (solX i) t p) (fun j => q (solStd (i + 1 + j)%nat) t p) (fun j => solC s (i + 1 + j)%nat n))).
Definition gibbs := property xG stG.
Definition entropy := property xS stS.
Definition volume := property xV stV.
(** what is minimised: the Gibbs energy, minus the entropy, the enthalpy, the Helmholtz energy *)
Definition potential (md : Mode) (hasL : bool) (t p : R) (s : St) : R :=
  match md with
  | Plain => gibbs hasL t p s
  | Isenthalpic => - entropy hasL t p s
  | Isentropic => gibbs hasL t p s + t * entropy hasL t p s
  | Isochoric => gibbs hasL t p s - p * volume hasL t p s
  end.
End System.

(** the moles in one column of the matrices *)
Definition valVar (s : St) (v : Var) : R := match v with VLiq nl j => liqC s nl j | VSol m ns => solC s m ns end.
Definition setVar (v : Var) (x : R) (s : St) : St :=
  match v with
  | VLiq nl j => setLiq nl j x s
  | VSol m ns => setSol m ns x s
  end.

(** ** Consistent data *)
(** pure components *)
Record stdOK (q : Std) : Prop := mkStdOK {
  dH : forall t p, 0 < t -> stH q t p = stG q t p + t * stS q t p;
  dG_t : forall t p, 0 < t -> is_derive (fun t => stG q t p) t (- stS q t p);
  dS_t : forall t p, 0 < t -> is_derive (fun t => stS q t p) t (stC q t p / t);
  dC_t : forall t p, 0 < t -> is_derive (fun t => stC q t p) t (stCt q t p);
  dG_p : forall t p, 0 < t -> is_derive (fun p => stG q t p) p (stV q t p);
  dV_p : forall t p, 0 < t -> is_derive (fun p => stV q t p) p (stVp q t p);
  dVp_p : forall t p, 0 < t -> is_derive (fun p => stVp q t p) p (stVpp q t p) }.

Section Solution.
Variable X : Mixing.
(** n components; D: the amounts the phase may have. A component of which there is none stays absent. *)
Variable n : nat.
Variable D : (nat -> R) -> Prop.
Definition there (m : nat -> R) (k : nat) : Prop := (k < n)%nat /\ m k <> 0.

(** a composition variable that no change of the amounts present moves *)
Definition fixed (m : nat -> R) (i : nat) : Prop :=
  forall j k, there m j -> there m k -> xDr X m i j = 0 /\ locally (m k) (fun x => xDr X (upd m k x) i j = 0).
(** Fx is the gradient of F, as the amounts change *)
Definition gradient (F : (nat -> R) -> R) (Fx : (nat -> R) -> nat -> R) : Prop :=
  forall m k, D m -> there m k -> is_derive (fun x => F (xR X (upd m k x))) (m k) (sum (xNr X) (fun i => Fx (xR X m) i * xDr X m i k)).
(** Fxx is the derivative of Fx *)
Definition hessian (Fx : (nat -> R) -> nat -> R) (Fxx : (nat -> R) -> nat -> nat -> R) : Prop :=
  forall m k i, D m -> there m k -> (i < xNr X)%nat ->
    fixed m i \/ is_derive (fun x => Fx (xR X (upd m k x)) i) (m k) (sum (xNr X) (fun l => Fxx (xR X m) i l * xDr X m l k)).
(** a function of composition sees no more than the n amounts *)
Definition respects (F : (nat -> R) -> R) : Prop := forall m m', (forall i, (i < n)%nat -> m i = m' i) -> F (xR X m) = F (xR X m').

Record solutionOK : Prop := mkSolutionOK {
  sOpen : forall m k, D m -> there m k -> locally (m k) (fun x => D (upd m k x));
  sExt : forall t p, respects (xG X t p) /\ respects (xS X t p) /\ respects (xV X t p);
  sR : forall m i k, D m -> (i < xNr X)%nat -> there m k -> is_derive (fun x => xR X (upd m k x) i) (m k) (xDr X m i k);
  sDr : forall m i j k, D m -> (i < xNr X)%nat -> there m j -> there m k -> is_derive (fun x => xDr X (upd m k x) i j) (m k) (xD2r X m i j k);
  sG : forall t p, 0 < t -> gradient (xG X t p) (xGx X t p) /\ hessian (xGx X t p) (xGxx X t p);
  sS : forall t p, 0 < t -> gradient (xS X t p) (xSx X t p) /\ hessian (xSx X t p) (xSxx X t p);
  sV : forall t p, 0 < t -> gradient (xV X t p) (xVx X t p) /\ hessian (xVx X t p) (xVxx X t p);
  sC : forall t p, 0 < t -> gradient (xC X t p) (xCx X t p);
  sVp : forall t p, 0 < t -> gradient (xVp X t p) (xVxp X t p);
  sG_t : forall t p m, 0 < t -> D m -> is_derive (fun t => xG X t p (xR X m)) t (- xS X t p (xR X m));
  sS_t : forall t p m, 0 < t -> D m -> is_derive (fun t => xS X t p (xR X m)) t (xC X t p (xR X m) / t);
  sC_t : forall t p m, 0 < t -> D m -> is_derive (fun t => xC X t p (xR X m)) t (xCt X t p (xR X m));
  sG_p : forall t p m, 0 < t -> D m -> is_derive (fun p => xG X t p (xR X m)) p (xV X t p (xR X m));
  sV_p : forall t p m, 0 < t -> D m -> is_derive (fun p => xV X t p (xR X m)) p (xVp X t p (xR X m));
  sVp_p : forall t p m, 0 < t -> D m -> is_derive (fun p => xVp X t p (xR X m)) p (xVpp X t p (xR X m)) }.
End Solution.
