(** Model of the oxygen potential of a system without a liquid.

    Source: sources/subSolidusMuO2.c 163-490 (the reaction, its reuse, mask FIRST and mask 0), liquidMass == 0;
    sources/silmin_support.c 1185-1189 (what is reported).

    Simplifications: doubles are real numbers and arrays total functions; the lists phaseIndex and nCoexist are one list of
    pairs, without the first place, which is that of O2; gsl_linalg_SV_decomp is whatever factors it returns, an argument
    here; the activities, computed once for a phase and then copied to its components (364-388), are a function of the
    component; the first length of a step to the buffer (400-405) is any number; the trial loops are relations, so that a run
    that never ends relates to nothing; memory and messages are left out. *)
From Coq Require Import Reals List Bool Arith.
From Verif Require Import MassModel HessModel.
Import ListNotations.
Open Scope R_scope.

(** The factors gsl_linalg_SV_decomp returns: A overwritten, S and V *)
Record Svd : Type := mkSvd { svU : nat -> nat -> R; svS : nat -> R; svV : nat -> nat -> R }.

(** gsl_linalg_SV_solve after 296: a component along a singular value below 1e-8 is dropped *)
Definition svSolve (rows n : nat) (U : nat -> nat -> R) (S : nat -> R) (V : nat -> nat -> R) (b : nat -> R) (j : nat) : R :=
  sum n (fun k => V j k * (if Rlt_dec (S k) (1 / 100000000) then 0 else sum rows (fun i => U i k * b i) / S k)).

(** ** The functions the program asks for: solids[].activity and convert, solids[].cur.g, oxygen.cur.g, solids[].test *)
Record Data : Type := mkData {
  dG : nat -> R -> R -> R;                              (* standard state of a solid or component *)
  dO2 : R -> R -> R;                                    (* oxygen.cur.g *)
  dAct : nat -> R -> R -> (nat -> R) -> nat -> R;       (* phase j: activities from the moles *)
  dTest : nat -> (nat -> R) -> bool }.

Definition SqrtEps : R := sqrt DBL_EPSILON.
(** includes/silmin.h: R *)
Definition Rgas : R := 83143 / 10000.

Section Sub.
Variable tab : Tab.
Variable isFeO : nat -> bool.
Variable dat : Data.
Variables t p : R.

(** 217-224: the oxides of the bulk composition *)
Definition oxides (s : St) : list nat := filter (fun o => negb (zeroR (bulk s o))) (seq 0 (nc tab)).
Definition rhsOf (o : nat) : R := if isFe2O3 tab o then 2 else if isFeO o then - 4 else 0.
Definition ironOxides (s : St) : nat := (length (filter isFeO (oxides s)) + length (filter (isFe2O3 tab) (oxides s)))%nat.
(** 225-241: the components of the solids *)
Definition colsOf (s : St) (i : nat) : list (nat * nat) :=
  if Nat.eqb (nSol s i) 0 then []
  else if Nat.eqb (na tab i) 1 then [(i, O)]
  else flat_map (fun k => flat_map (fun j => if zeroR (solC s (i + 1 + j)%nat k) then [] else [((i + 1 + j)%nat, k)]) (seq 0 (na tab i))) (seq 0 (nSol s i)).
Definition cols (s : St) : list (nat * nat) := flat_map (colsOf s) (seq 0 (npc tab)).
(** 201-202 *)
Definition noSolids (s : St) : bool := allb (npc tab) (fun i => Nat.eqb (nSol s i * na tab i) 0).

Definition amount (s : St) (c : nat * nat) : R := solC s (fst c) (snd c).
Definition colAt (s : St) (j : nat) : nat * nat := nth j (cols s) (O, O).
(** mm and n *)
Definition rowsN (s : St) : nat := S (length (oxides s)).
Definition colsN (s : St) : nat := S (length (cols s)).

(** 216, 259-261 *)
Definition stM (s : St) (i j : nat) : R :=
  match i, j with
  | O, O => 1
  | S i, S j => solToOx tab (fst (colAt s j)) (nth i (oxides s) O)
  | _, _ => 0
  end.
Definition rhs (s : St) (i : nat) : R := match i with O => - 1 | S i => rhsOf (nth i (oxides s) O) end.
(** 10.0 for O2 (286, 290), the moles for a solid *)
Definition weight (s : St) (j : nat) : R := match j with O => 10 | S j => amount s (colAt s j) end.
(** 270-293: the matrix that is decomposed; transposed and padded with zeros when it has fewer rows than columns *)
Definition svRows (s : St) : nat := if Nat.leb (colsN s) (rowsN s) then rowsN s else colsN s.
Definition svMat (s : St) (i j : nat) : R :=
  if Nat.leb (colsN s) (rowsN s) then stM s i j * weight s j
  else if Nat.ltb j (rowsN s) then stM s j i * weight s i else 0.
(** 282, 298 *)
Definition svRhs (s : St) (i : nat) : R := if Nat.ltb i (rowsN s) then rhs s i else 0.
(** 301-302 *)
Definition svX (s : St) (f : Svd) : nat -> R :=
  if Nat.leb (colsN s) (rowsN s) then svSolve (rowsN s) (colsN s) (svU f) (svS f) (svV f) (svRhs s)
  else svSolve (colsN s) (colsN s) (svV f) (svS f) (svU f) (svRhs s).
(** 304-307. The first division makes dstoich[0] equal to -1, so that the others divide by 1. *)
Definition divideAll (d : nat -> R) : nat -> R :=
  let d0 := d O / - d O in
  fun j => match j with O => d0 | S _ => d j / - d0 end.
Definition reaction (s : St) (f : Svd) : option (nat -> R) :=
  if Nat.eqb (ironOxides s) 2 then
    if Req_EM_T (svX s f O) 0 then None else Some (divideAll (fun j => svX s f j * weight s j))
  else None.

(** 333-342: what is remembered *)
Record Cache : Type := mkCache { cRows : nat; cCols : list (nat * nat); cD : nat -> R }.
(** 244-253 *)
Definition sameCols (a b : list (nat * nat)) : bool :=
  Nat.eqb (length a) (length b) && forallb (fun q => Nat.eqb (fst (fst q)) (fst (snd q)) && Nat.eqb (snd (fst q)) (snd (snd q))) (combine a b).
Definition reusable (c : option Cache) (s : St) : option (nat -> R) :=
  match c with
  | None => None
  | Some c => if Nat.eqb (rowsN s) (cRows c) && sameCols (cols s) (cCols c)
                 && forallb (fun q => if Rlt_dec (5 / 1000000) (Rabs (amount s q)) then true else false) (cols s)
              then Some (cD c) else None
  end.
(** 243-346: the reaction used, and the cache afterwards. None: the program returns FALSE. *)
Definition getReaction (c : option Cache) (s : St) (f : Svd) : option (nat -> R) * option Cache :=
  match reusable c s with
  | Some d => (Some d, c)
  | None => match reaction s f with
            | Some d => (Some d, Some (mkCache (rowsN s) (cols s) d))
            | None => (None, c)
            end
  end.

(** 365: j=phaseIndex[i]; while(solids[--j].type != PHASE) *)
Fixpoint phaseOf (i : nat) : nat := match i with O => O | S j => if isPhase tab j then j else phaseOf j end.
(** 358-388 *)
Definition actOf (s : St) (c : nat * nat) : R :=
  if isPhase tab (fst c) then 1
  else let j := phaseOf (fst c) in
       Rmax (dAct dat j t p (fun k => solC s (j + 1 + k)%nat (snd c)) (fst c - j - 1)%nat) (1 / 10 ^ 16).
(** 389: activity_product *= pow(a[i],dstoich[i]) *)
Fixpoint product (n : nat) (f : nat -> R) : R := match n with O => 1 | S n => product n f * f n end.
(** 356, 389-392: tempmuO2, over the components l *)
Definition muReact (l : list (nat * nat)) (d : nat -> R) (s : St) : R :=
  d O * dO2 dat t p + sum (length l) (fun j => d (S j) * dG dat (fst (nth j l (O, O))) t p)
  + Rgas * t * ln (product (length l) (fun j => Rpower (actOf s (nth j l (O, O))) (d (S j)))).

(** mask FIRST: what is returned, *muO2, and the cache *)
Definition muFirst (c : option Cache) (s : St) (f : Svd) : bool * R * option Cache :=
  if noSolids s then (true, 0, c)
  else match getReaction c s f with
       | (Some d, c') => (true, muReact (cols s) d s, c')
       | (None, c') => (false, 0, c')
       end.
(** silmin_support.c 1185-1189: log10 of the oxygen fugacity that is reported when no buffer is imposed *)
Definition reported (c : option Cache) (s : St) (f : Svd) : R := snd (fst (muFirst c s f)) / (Rgas * t * ln 10).

(** ** mask 0: the reaction is run to a given potential *)
(** 194-197 *)
Definition molesO2 (s : St) : R :=
  sum (npc tab) (fun i => sum (nSol s i) (fun ns =>
    if Nat.eqb (na tab i) 1 then solC s i ns * o2Sol tab i else sum (na tab i) (fun j => solC s (i + 1 + j)%nat ns * o2Sol tab (i + 1 + j)%nat))).
(** 414 and 458 *)
Definition runBy (l : list (nat * nat)) (d : nat -> R) (xi : R) (s : St) : St :=
  loop (length l) (fun j s => setSol (fst (nth j l (O, O))) (snd (nth j l (O, O))) (solC s (fst (nth j l (O, O))) (snd (nth j l (O, O))) + xi * d (S j)) s) s.
(** 415-439: the totals of the solutions, and whether every phase is possible *)
Definition totals (s : St) : St :=
  loop (npc tab) (fun i s =>
    if isPhase tab i && negb (Nat.eqb (na tab i) 1)
    then loop (nSol s i) (fun k s => setSol i k (sum (na tab i) (fun j => solC s (i + 1 + j)%nat k)) s) s else s) s.
Definition phasesOk (s : St) : bool :=
  allb (npc tab) (fun i =>
    if isPhase tab i then
      if Nat.eqb (na tab i) 1 then (if Rlt_dec (solC s i 0) 0 then false else true)
      else allb (nSol s i) (fun k => dTest dat i (fun j => solC s (i + 1 + j)%nat k))
    else true).
(** 440-455: the bulk composition *)
Definition inSolids (s : St) (o : nat) : R :=
  sum (npc tab) (fun j => sum (nSol s j) (fun ns =>
    if Nat.eqb (na tab j) 1 then solC s j ns * solToOx tab j o else sum (na tab j) (fun k => solC s (j + 1 + k)%nat ns * solToOx tab (j + 1 + k) o))).
Definition newBulk (s : St) : St := setBulk (fun o => if Nat.ltb o (nc tab) then inSolids s o else bulk s o) s.
Definition trialBy (l : list (nat * nat)) (d : nat -> R) (xi : R) (s : St) : St := newBulk (totals (runBy l d xi s)).
Definition trialOk (o2 : R) (s : St) : bool :=
  (if Rlt_dec o2 0 then false else true) && phasesOk s && allb (nc tab) (fun o => if Rlt_dec (bulk s o) 0 then false else true).

(** 406-469: a step is halved until it is possible. The answer is TRUE with the state and the oxygen after it, or FALSE. *)
Inductive Halve (l : list (nat * nat)) (d : nat -> R) : R -> R -> St -> bool -> R -> St -> Prop :=
| Halve_ok xi o2 s : trialOk (o2 - xi) (trialBy l d xi s) = true -> Halve l d xi o2 s true (o2 - xi) (trialBy l d xi s)
| Halve_fail xi o2 s : trialOk (o2 - xi) (trialBy l d xi s) = false -> Rabs (xi / 2) < 100 * DBL_EPSILON ->
    Halve l d xi o2 s false (o2 - xi + xi) (runBy l d (- xi) (trialBy l d xi s))
| Halve_again xi o2 s b o2' s' : trialOk (o2 - xi) (trialBy l d xi s) = false -> 100 * DBL_EPSILON <= Rabs (xi / 2) ->
    Halve l d (xi / 2) (o2 - xi + xi) (runBy l d (- xi) (trialBy l d xi s)) b o2' s' -> Halve l d xi o2 s b o2' s'.

(** 351-474, mask 0; [target] is *muO2 *)
Inductive Steps (l : list (nat * nat)) (d : nat -> R) (target : R) : R -> St -> bool -> St -> Prop :=
| Steps_done o2 s : Rabs (muReact l d s - target) < SqrtEps -> Steps l d target o2 s true s
| Steps_fail o2 s xi o2' s' : SqrtEps <= Rabs (muReact l d s - target) -> Halve l d xi o2 s false o2' s' -> Steps l d target o2 s false s'
| Steps_step o2 s xi o2' s' b s'' : SqrtEps <= Rabs (muReact l d s - target) -> Halve l d xi o2 s true o2' s' ->
    Steps l d target o2' s' b s'' -> Steps l d target o2 s b s''.
(** the whole call *)
Inductive Buffer (c : option Cache) (target : R) (s : St) (f : Svd) : bool -> option Cache -> St -> Prop :=
| Buffer_none : noSolids s = true -> Buffer c target s f true c s
| Buffer_fails c' : noSolids s = false -> getReaction c s f = (None, c') -> Buffer c target s f false c' s
| Buffer_runs d c' b s' : noSolids s = false -> getReaction c s f = (Some d, c') -> Steps (cols s) d target (molesO2 s) s b s' -> Buffer c target s f b c' s'.
End Sub.
