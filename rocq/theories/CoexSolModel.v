(** Model of checkForCoexistingSolids: sources/check_coexisting_solids.c 205-457.

    Simplifications: doubles are real numbers; a loop that accumulates a sum is written [sum]; the arrays allocated on the
    first call, the Hessian (not used: _NO_SPINODE_TEST), the debugging output and the liquid's mass (recomputed 373-376) are
    left out. fmingr (440-452) reads the composition that the last call of fminfn left in tVec; vmmin calls it only after a call of
    fminfn at the same point (nash.c 220-230, 253-260), so it is a function of that point. The liquid's test is that of
    liquid_v34.c. *)
From Coq Require Import Reals List Bool Arith.
From Verif Require Import MassModel LiqModel LaSpec LaBase HhModel QuadModel NashModel CoexModel.
Import ListNotations.
Open Scope R_scope.

(** The functions of one solid solution, solids[Index] (includes/silmin.h 280-330): na, nr, convert(SECOND, THIRD) from moles to
    the independent variables, convert(THIRD, FOURTH) to the mole fractions, convert(THIRD, SEVENTH) their derivatives,
    test(FIFTH), gmix(FIRST) and gmix(SECOND) *)
Record Solid : Type := mkSolid {
  sNa : nat; sNr : nat;
  sR : (nat -> R) -> nat -> R;
  sX : (nat -> R) -> nat -> R;
  sDx : (nat -> R) -> nat -> nat -> R;
  sTest : (nat -> R) -> bool;
  sG : R -> R -> (nat -> R) -> R;
  sGx : R -> R -> (nat -> R) -> nat -> R }.

Section One.
Variable X : Solid.
Variables t p : R.
(** contents of hVec before the call *)
Variable h0 : nat -> R.
Notation na := (sNa X).
Notation nr := (sNr X).
Notation G := (sG X t p).
Notation Gx := (sGx X t p).

(** 280-282: the end-members that are absent *)
Definition nullsS (m : nat -> R) : list nat := filter (fun i => isZ (m i)) (seq 0 na).
Definition presentS (m : nat -> R) : list nat := filter (fun i => negb (isZ (m i))) (seq 0 na).
Definition neS (m : nat -> R) : nat := length (nullsS m).
(** 283: nz, the number of free variables *)
Definition nzS (m : nat -> R) : nat := (length (presentS m) + nr - na)%nat.
(** 288-289: the derivatives of the fractions of the absent end-members, moved to the front *)
Definition nullRowsS (m : nat -> R) : mat := fun k j => sDx X (sR X m) (nth k (nullsS m) k) j.
(** 290 *)
Definition frameS (m : nat -> R) : mat * vec := conDecomp (neS m) nr (nullRowsS m) h0.
(** 300 and 448: to the free variables; 307 and 423: back *)
Definition toFreeS (m : nat -> R) (x : nat -> R) : nat -> R := projUp Row (neS m) nr (fst (frameS m)) (snd (frameS m)) (fun _ => x) 0 1 0%nat.
Definition fromFreeS (m : nat -> R) (x : nat -> R) : nat -> R := projDown Row (neS m) nr (fst (frameS m)) (snd (frameS m)) (fun _ => x) 0 1 0%nat.
(** 420-425 and, after the search, 305-309 *)
Definition liftS (m y b : nat -> R) : nat -> R :=
  let v := fun i => if (i <? neS m)%nat then y i else b (i - neS m)%nat in
  if (neS m =? 0)%nat then v else snap (fromFreeS m v).
(** 430-433 *)
Definition gapS (ref x : nat -> R) : R := G x - G ref - MassModel.sum nr (fun i => Gx ref i * (x i - ref i)).
(** 412-436 *)
Definition fminfnS (m y b : nat -> R) : option R :=
  let tv := liftS m y b in if sTest X tv then Some (gapS (sR X m) tv) else None.
(** 440-452 *)
Definition fmingrS (m y b : nat -> R) (k : nat) : R :=
  let d := fun i => Gx (liftS m y b) i - Gx (sR X m) i in
  (if (neS m =? 0)%nat then d else toFreeS m d) (k + neS m)%nat.
(** 295-297: the start of the search in the direction of end-member i *)
Definition startOfS (m : nat -> R) (i j : nat) : R := if isZ (m j) then 0 else if Nat.eqb j i then 1 * (10 * INR (na - neS m)) else 1.
(** 297-300 *)
Definition startFreeS (m : nat -> R) (i : nat) : nat -> R := let b := sR X (startOfS m i) in if (neS m =? 0)%nat then b else toFreeS m b.
(** 301: yVec *)
Definition fixedS (m : nat -> R) (i : nat) : nat -> R := snap (startFreeS m i).
(** 293-326: one search, and what it contributes *)
Definition trialS (m : nat -> R) (i : nat) (c : option (nat -> R)) : Prop :=
  exists F0 r,
    vmmin (nzS m) (fminfnS m (fixedS m i)) (fmingrS m (fixedS m i)) reltest (fun k => startFreeS m i (k + neS m)%nat) F0 r /\
    c = (match codev r with
         | SUCCESS => if Rlt_dec (oF r) (- reltest * Rabs (G (sR X m))) then Some (liftS m (fixedS m i) (oB r)) else None
         | _ => None
         end).
Definition searchesS (m : nat -> R) (cs : list (nat -> R)) : Prop := exists l, Forall2 (trialS m) (presentS m) l /\ cs = somes l.
(** 312-313, 342-343: the composition most distant from the one tested *)
Definition dist2S (ref x : nat -> R) : R := MassModel.sum nr (fun i => (x i - ref i) * (x i - ref i)).
Definition farthestS (ref x0 : nat -> R) (l : list (nat -> R)) : nat -> R :=
  fold_left (fun best x => if Rlt_dec (dist2S ref best) (dist2S ref x) then x else best) l x0.
(** 261-380: the loop on the instances of the phase, up to the first one with a candidate (line 336 ends the loop) *)
Inductive scanS : list (nat -> R) -> option (nat -> R) -> Prop :=
| scanS_end : scanS [] None
| scanS_next m ms o : searchesS m [] -> scanS ms o -> scanS (m :: ms) o
| scanS_found m ms x cs : searchesS m (x :: cs) -> scanS (m :: ms) (Some (farthestS (sR X m) x cs)).
End One.

(** 243-260: the phases for which the test is restricted (RHYOLITE_ADJUSTMENTS) *)
Inductive Kind : Type := Orthopyroxene | Feldspar | Clinopyroxene | OtherSolid.
Definition blocked (k : Kind) (n : nat) : bool :=
  match k with
  | Orthopyroxene => true
  | Feldspar => (2 <=? n)%nat
  | Clinopyroxene => (3 <=? n)%nat
  | OtherSolid => false
  end.

Section All.
Variable tab : Tab.
(** solids[i] of the solutions, and which of the named phases it is *)
Variable solid : nat -> Solid.
Variable kind : nat -> Kind.
Variables t p : R.
Variable h0 : nat -> R.

(** 351-356: the first liquid after amount [inmass] of composition x is taken from it *)
Definition drawn (i : nat) (x : nat -> R) (inmass : R) (s : St) (j : nat) : R :=
  liqC s 0 j - MassModel.sum (na tab i) (fun k => solToLiq tab (i + 1 + k) j * x k * inmass).
(** testLiq_v34 331-343, case SIXTH *)
Definition liquidOK (c : nat -> R) : bool := forallb (fun j => leb 0 (c j)) (seq 0 (nlc tab)).
(** 345-360: the amount of the new phase. With a liquid: the first of MASSIN, MASSIN/2, MASSIN/4, ... that the liquid can
    supply; the loop has no other exit *)
Inductive amountIn (i : nat) (x : nat -> R) (s : St) : R -> R -> Prop :=
| amount_ok a : liquidOK (drawn i x a s) = true -> amountIn i x s a a
| amount_half a b : liquidOK (drawn i x a s) = false -> amountIn i x s (a * (1 / 2)) b -> amountIn i x s a b.
Definition amountOf (i : nat) (x : nat -> R) (s : St) (a : R) : Prop :=
  if hasLiquid s then amountIn i x s MassModel.MASSIN a else a = MassModel.MASSIN.
(** the instances of phase i *)
Definition instances (i : nat) (s : St) : list (nat -> R) := map (fun ns k => solC s (i + 1 + k) ns) (seq 0 (nSol s i)).
(** 242-383: one phase. The bookkeeping 344-372 is MassModel.addSecondSolid *)
Definition visit (i : nat) (s s' : St) (found : bool) : Prop :=
  if (na tab i <=? 1)%nat then s' = s /\ found = false
  else if blocked (kind i) (nSol s i) then s' = s /\ found = false
  else exists o, scanS (solid i) t p h0 (instances i s) o /\
    match o with
    | None => s' = s /\ found = false
    | Some x => exists a, amountOf i (sX (solid i) x) s a /\ s' = addSecondSolid tab i (sX (solid i) x) a s /\ found = true
    end.
Inductive visits : list nat -> St -> St -> bool -> Prop :=
| visits_end s : visits [] s s false
| visits_next i l s s' s'' f g : visit i s s' f -> visits l s' s'' g -> visits (i :: l) s s'' (f || g).
(** 205-386 *)
Definition checkSolids (s s' : St) (found : bool) : Prop :=
  if Rle_dec t 0 then s' = s /\ found = false
  else if Rlt_dec p 0 then s' = s /\ found = false
  else visits (seq 0 (npc tab)) s s' found.
End All.
