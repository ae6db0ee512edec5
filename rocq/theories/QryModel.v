(** Model of the library's property queries: what a caller gets for one phase of a given composition.

    Sources: sources/library.c meltsgetphaseproperties_ 1435-1675 and getMeltsPhaseProperties 1681-1701,
    meltsgetmolarproperties_ 1713-1885 and getMeltsMolarProperties 1891-1909, meltsgetendmemberproperties_ 1928-2103 and
    getMeltsEndMemberProperties 2115-2147, meltsgetoxideproperties_ 2166-2240 and getMeltsOxideProperties 2251-2290; built
    without TESTDYNAMICLIB (Makefiles/Makefile.* define it only for DYNAMIC) and without USESJLJ and USESEH.

    Simplifications: doubles are real numbers; bsearch over the phase list is its result (an entry or none); what gibbs()
    leaves in cur, and the functions gmix, hmix, smix, cpmix, vmix, activity and convert of a phase, are fields of a record,
    as functions of temperature, pressure and composition; the caller's arrays are functions from positions, in a memory
    indexed by addresses, and a pointer is an address or NULL; names are left out; strncmp of an oxide's label with the
    labels of the liquid components is its result, a partial function; the silminState != NULL && fo2Path != FO2_NONE
    branch is an optional function (conLiq(FIRST | SEVENTH, FIRST) at that fO2). *)
From Coq Require Import Reals List Bool Arith.
From Verif Require Import MassModel ReportModel.
Open Scope R_scope.

(** the value of R in includes/silmin.h 368 *)
Definition Rgas : R := 83143 / 10000.

(** A solution phase: number of components, convert(FIRST, SECOND) from elements, convert(SECOND, THIRD), the eleven mixing
    properties per mole, the potentials of activity(SECOND) and the end members' cur. *)
Record Soln : Type := mkSoln {
  sNa : nat;
  sElem : (nat -> R) -> nat -> R;
  sR : (nat -> R) -> nat -> R;
  sMix : nat -> R -> R -> (nat -> R) -> R;
  sMu : R -> R -> (nat -> R) -> nat -> R;
  sAct : R -> R -> (nat -> R) -> nat -> R;
  sCur : nat -> nat -> R -> R -> R }.
(** The phase found: j < 0, solids[j].na == 1 (molecular weight and cur), or a solution *)
Inductive Entry : Type := Liquid | Pure (mw : R) (cur : nat -> R -> R -> R) | Solution (s : Soln).

Definition Arr : Type := nat -> R.
Definition Mem : Type := nat -> Arr.
Definition store (a : nat) (v : Arr) (mem : Mem) : Mem := fun b => if Nat.eqb b a then v else mem b.

(** 1558-1586 = 2037-2065: pyroxenes; e is indexed by atomic number *)
Definition pyrFe3 (e : nat -> R) : R :=
  3 * (e 11%nat + e 12%nat + e 13%nat + e 14%nat + e 20%nat + e 22%nat + e 24%nat + e 25%nat + e 26%nat)
  - (e 11%nat + 2 * e 12%nat + 3 * e 13%nat + 4 * e 14%nat + 2 * e 20%nat + 4 * e 22%nat + 3 * e 24%nat + 2 * e 25%nat)
  - 2 * e 26%nat.
Definition pyrSplit (e : nat -> R) : R * R :=
  let fe3 := pyrFe3 e in
  let fe2 := e 26%nat - fe3 in
  let '(fe3, fe2) := if Rlt_dec fe3 0 then (0, e 26%nat) else (fe3, fe2) in
  if Rlt_dec fe2 0 then (e 26%nat, 0) else (fe3, fe2).
Definition pyrElem (e : nat -> R) (i : nat) : R :=
  let '(fe3, fe2) := pyrSplit e in
  match i with
  | 0%nat => - fe3 / 2 - fe2 - e 25%nat - e 13%nat / 2 - e 24%nat / 2 + e 20%nat + e 11%nat / 2 - e 22%nat
  | 1%nat => fe3 / 4 + fe2 / 2 + e 25%nat / 2 + e 13%nat / 4 + e 24%nat / 4 - e 20%nat / 2 + e 12%nat / 2 - e 11%nat / 4
  | 2%nat => fe2 + e 25%nat
  | 3%nat => - fe3 / 2 + e 13%nat / 2 + e 24%nat / 2 - e 11%nat / 2 + e 22%nat
  | 4%nat => fe3 / 2 - e 13%nat / 2 - e 24%nat / 2 + e 11%nat / 2 + e 22%nat
  | 5%nat => fe3 / 2 + e 13%nat / 2 + e 24%nat / 2 - e 11%nat / 2 - e 22%nat
  | 6%nat => e 11%nat
  | _ => 0
  end.

Section Query.
Variable tab : Tab.
Variable oxToElm : nat -> nat -> R.     (* bulkSystem[i].oxToElm[k] *)
Variable liq : Soln.                    (* the liquid; sNa = nlc, sElem unused *)
Variable redo : option (R -> R -> (nat -> R) -> nat -> R).

(** 1464 = 1953 = 2194 *)
Definition liqMoles (grams : Arr) (i : nat) : R := sum (nc tab) (fun k => oxToLiq tab k i * grams k / omw tab k).
(** 1467-1470 = 1738-1741 = 1955-1958 = 2196-2199 *)
Definition onPath (t p : R) (m : nat -> R) : nat -> R := match redo with Some f => f t p m | None => m end.
(** 1544-1548 = 2022-2026 *)
Definition elements (grams : Arr) (k : nat) : R := sum (nc tab) (fun i => grams i / omw tab i * oxToElm i k).
(** the moles of components of a solution phase *)
Definition moles (liquid : bool) (s : Soln) (t p : R) (grams : Arr) : nat -> R :=
  if liquid then onPath t p (liqMoles grams) else sElem s (elements grams).

(** 1473-1516, 1592-1632: property q of m moles of components *)
Definition total (s : Soln) (t p : R) (m : nat -> R) (q : nat) : R :=
  sMix s q t p (sR s m) * sum (sNa s) m + sum (sNa s) (fun i => m i * sCur s i q t p).
(** 1742-1774, 1829-1852: the same per mole *)
Definition molar (s : Soln) (t p : R) (m : nat -> R) (q : nat) : R :=
  sMix s q t p (sR s m) + sum (sNa s) (fun i => m i * sCur s i q t p / sum (sNa s) m).
(** 1514, 1773, 1629, 1850 *)
Definition potential (s : Soln) (t p : R) (m : nat -> R) (i : nat) : R := sMu s t p (sR s m) i + sCur s i 0%nat t p.

(** the cells written: 1650-1660 (eleven) and 11+i *)
Definition written (props : nat -> R) (n : nat) (mu : nat -> R) (old : Arr) : Arr :=
  fun c => if Nat.ltb c 11 then scale c (props c) else if Nat.ltb c (11 + n) then mu (c - 11)%nat else old c.

(** meltsgetphaseproperties_: the memory afterwards. The assignment phaseProperties = NULL of 1450 changes the local copy of
    the pointer only. *)
Definition phaseProperties_ (found : option Entry) (t p : R) (grams : Arr) (props : nat) (mem : Mem) : Mem :=
  match found with
  | None => mem
  | Some Liquid => let m := moles true liq t p grams in store props (written (total liq t p m) (sNa liq) (potential liq t p m) (mem props)) mem
  | Some (Pure mw cur) => store props (written (fun q => sum (nc tab) grams / mw * cur q t p) 0 (fun _ => 0) (mem props)) mem
  | Some (Solution s) => let m := moles false s t p grams in store props (written (total s t p m) (sNa s) (potential s t p m) (mem props)) mem
  end.
(** meltsgetmolarproperties_: the composition is in moles of components *)
Definition molarProperties_ (found : option Entry) (t p : R) (comp : Arr) (props : nat) (mem : Mem) : Mem :=
  match found with
  | None => mem
  | Some Liquid => let m := onPath t p comp in store props (written (molar liq t p m) (sNa liq) (potential liq t p m) (mem props)) mem
  | Some (Pure mw cur) => store props (written (fun q => cur q t p) 0 (fun _ => 0) (mem props)) mem
  | Some (Solution s) => store props (written (molar s t p comp) (sNa s) (potential s t p comp) (mem props)) mem
  end.

(** ** End members: four numbers each, X, activity, mu0, mu *)
Definition unlessZero (x y : R) : R := if Req_EM_T x 0 then 0 else y.
(** 1999-2002, 2085-2088 *)
Definition row (x a mu0 mu : nat -> R) (c : nat) : R :=
  let i := (c / 4)%nat in
  match (c mod 4)%nat with 0%nat => x i | 1%nat => a i | 2%nat => mu0 i | _ => mu i end.
Definition endRows (s : Soln) (t p : R) (m : nat -> R) (a : nat -> R) : nat -> R :=
  row (fun i => unlessZero (sum (sNa s) m) (m i / sum (sNa s) m)) (fun i => unlessZero (m i) (a i))
      (fun i => unlessZero (m i) (sCur s i 0%nat t p)) (fun i => unlessZero (m i) (potential s t p m i)).
Definition fill (n : nat) (v : nat -> R) (old : Arr) : Arr := fun c => if Nat.ltb c (4 * n) then v c else old c.
(** The number of end members is written as well. 2068: activity(0, ..., aSol, ...) of a solid writes nothing when
    TESTDYNAMICLIB is not defined (feldspar.c 551-558 and the others), and aSol is zero from calloc. *)
Definition endMemberProperties_ (found : option Entry) (t p : R) (grams : Arr) (props : nat) (number : nat) (mem : Mem) : nat * Mem :=
  match found with
  | None => (number, mem)
  | Some Liquid => let m := moles true liq t p grams in
      (sNa liq, store props (fill (sNa liq) (endRows liq t p m (sAct liq t p (sR liq m))) (mem props)) mem)
  | Some (Pure mw cur) => (1%nat, store props (fill 1 (row (fun _ => 1) (fun _ => 1) (fun _ => cur 0%nat t p) (fun _ => cur 0%nat t p)) (mem props)) mem)
  | Some (Solution s) => let m := moles false s t p grams in
      (sNa s, store props (fill (sNa s) (endRows s t p m (fun _ => 0)) (mem props)) mem)
  end.

(** ** Oxides (liquid only): 2192-2232 *)
Variable same : nat -> option nat.      (* 2218-2219: the first liquid component whose label matches that of oxide k *)
Definition oxMoles (m : nat -> R) (k : nat) : R := sum (nlc tab) (fun i => if Req_EM_T (m i) 0 then 0 else liqToOx tab i k * m i).
Definition oxMu (t p : R) (m : nat -> R) (k : nat) : R :=
  sum (nlc tab) (fun i => if Req_EM_T (m i) 0 then 0 else oxToLiq tab k i * potential liq t p m i).
Definition oxRows (t p : R) (m : nat -> R) : nat -> R :=
  let mTot := sum (nc tab) (oxMoles m) in
  let has (k : nat) (y : R) := unlessZero (oxMoles m k) y in
  row (fun k => has k (if Req_EM_T mTot 0 then oxMoles m k else oxMoles m k / mTot))
      (fun k => has k (match same k with Some i => exp ((oxMu t p m k - sCur liq i 0%nat t p) / (t * Rgas)) | None => 0 end))
      (fun k => has k (match same k with Some i => sCur liq i 0%nat t p | None => 0 end))
      (fun k => has k (oxMu t p m k * (mTot / sum (nlc tab) m))).
Definition oxideProperties_ (found : option Entry) (t p : R) (grams : Arr) (props : nat) (number : nat) (mem : Mem) : nat * Mem :=
  match found with
  | None => (number, mem)
  | Some Liquid => (nc tab, store props (fill (nc tab) (oxRows t p (moles true liq t p grams)) (mem props)) mem)
  | Some _ => (number, mem)
  end.

(** ** The wrappers: 1693-1694, 1901-1902, 2138-2139, 2281-2282. Each tests its own pointer, which the callee cannot change. *)
Definition flag (ptr : option nat) (failure : bool) : bool := match ptr with Some _ => false | None => failure end.
Definition at_ (ptr : option nat) : nat := match ptr with Some a => a | None => 0%nat end.
Definition getPhaseProperties (failure : bool) found t p grams (ptr : option nat) mem : bool * Mem :=
  let mem := phaseProperties_ found t p grams (at_ ptr) mem in (flag ptr failure, mem).
Definition getMolarProperties (failure : bool) found t p comp (ptr : option nat) mem : bool * Mem :=
  let mem := molarProperties_ found t p comp (at_ ptr) mem in (flag ptr failure, mem).
Definition getEndMemberProperties (failure : bool) found t p grams (ptr : option nat) number mem : bool * (nat * Mem) :=
  let r := endMemberProperties_ found t p grams (at_ ptr) number mem in (flag ptr failure, r).
Definition getOxideProperties (failure : bool) found t p grams (ptr : option nat) number mem : bool * (nat * Mem) :=
  let r := oxideProperties_ found t p grams (at_ ptr) number mem in (flag ptr failure, r).
End Query.
