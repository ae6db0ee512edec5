(** Model of the property queries as the shared library (Makefile.common, DYNAMIC: TESTDYNAMICLIB defined) answers them.

    Sources: sources/library.c meltsgetphaseproperties_ 1435-1675, meltsgetmolarproperties_ 1713-1885,
    meltsgetendmemberproperties_ 1928-2103, meltsgetweightsandformulas_ 359-410; with TESTDYNAMICLIB. (Without it line 387,
    "...;0" before a closing brace, is a syntax error, so that this is the variant that compiles; it differs from QryModel.v in
    the cells after the eleventh, in the activities of solids and in the end members of a liquid with carbon dioxide.)

    Simplifications: those of QryModel.v; a phase found is its entry and its place in the solids table; what lies beyond the
    nlc entries of bulkSystem[].oxToLiq is any number; the carbonate species of liquid_CO2.c and liquid_CO2_H2O.c is an option
    with the places of SiO2, CaSiO3 and CO2, the fraction actLiq(0, ...) gives and the species' cur.g; names are left out. *)
From Coq Require Import Reals Bool Arith List.
From Verif Require Import MassModel ReportModel QryModel.
Open Scope R_scope.

Section Dyn.
Variable tab : Tab.
Variable oxToElm : nat -> nat -> R.
Variable liq : Soln.
Variable redo : option (R -> R -> (nat -> R) -> nat -> R).

(** the oxides of n components of moles m: 1510-1513, 1640-1643 *)
Definition oxGrams (n : nat) (stoich : nat -> nat -> R) (m : nat -> R) (o : nat) : R := sum n (fun k => stoich k o * m k * omw tab o).
Definition orZero (x y : R) : R := if Req_EM_T x 0 then 0 else y / x.
(** 1650-1672, 1863-1880: eleven properties, the oxides, and three more *)
Definition cells (props ox : nat -> R) (weight density mass : R) (old : Arr) : Arr := fun c =>
  if Nat.ltb c 11 then scale c (props c) else if Nat.ltb c (11 + nc tab) then ox (c - 11)%nat
  else if Nat.eqb c (11 + nc tab) then weight else if Nat.eqb c (12 + nc tab) then density else if Nat.eqb c (13 + nc tab) then mass else old c.
(** 1665-1671 *)
Definition phaseCells (props ox : nat -> R) (moles : R) (grams : Arr) : Arr -> Arr :=
  let g := sum (nc tab) grams in cells props ox (orZero moles g) (orZero (props 3%nat) (100 * g)) g.
(** 1876-1880 *)
Definition molarCells (props ox : nat -> R) : Arr -> Arr :=
  let g := sum (nc tab) ox in cells props ox g (orZero (props 3%nat) (100 * g)) g.

(** meltsgetphaseproperties_ *)
Definition dynPhase_ (found : option (nat * Entry)) (t p : R) (grams : Arr) (props : nat) (mem : Mem) : Mem :=
  match found with
  | None => mem
  | Some (_, Liquid) => let m := moles tab oxToElm redo true liq t p grams in
      store props (phaseCells (total liq t p m) (oxGrams (nlc tab) (liqToOx tab) m) (sum (nlc tab) m) grams (mem props)) mem
  | Some (j, Pure mw cur) => let factor := sum (nc tab) grams / mw in
      store props (phaseCells (fun q => factor * cur q t p) (fun o => solToOx tab j o * omw tab o * factor) factor grams (mem props)) mem
  | Some (j, Solution s) => let m := moles tab oxToElm redo false s t p grams in
      store props (phaseCells (total s t p m) (oxGrams (sNa s) (fun k => solToOx tab (j + 1 + k)) m) (sum (sNa s) m) grams (mem props)) mem
  end.
(** meltsgetmolarproperties_; every term is divided by the total: 1779, 1854 *)
Definition dynMolar_ (found : option (nat * Entry)) (t p : R) (comp : Arr) (props : nat) (mem : Mem) : Mem :=
  match found with
  | None => mem
  | Some (_, Liquid) => let m := onPath redo t p comp in
      store props (molarCells (molar liq t p m) (fun o => sum (nlc tab) (fun k => liqToOx tab k o * m k * omw tab o / sum (nlc tab) m)) (mem props)) mem
  | Some (j, Pure mw cur) => store props (molarCells (fun q => cur q t p) (fun o => solToOx tab j o * omw tab o) (mem props)) mem
  | Some (j, Solution s) =>
      store props (molarCells (molar s t p comp) (fun o => sum (sNa s) (fun k => solToOx tab (j + 1 + k) o * comp k * omw tab o / sum (sNa s) comp)) (mem props)) mem
  end.

(** ** End members *)
(** 1974-1998: the species CaCO3 at place nlc *)
Record Carbonate : Type := mkCarb { iSi : nat; iCa : nat; iC : nat; xSpecies : R -> R -> (nat -> R) -> R; gSpecies : R -> R -> R }.
Definition speciated (c : Carbonate) (t p : R) (m : nat -> R) (i : nat) : R :=
  let y := xSpecies c t p (sR liq m) * sum (nlc tab) m in
  if Nat.eqb i (nlc tab) then y
  else m i + (if Nat.eqb i (iSi c) then y else 0) - (if Nat.eqb i (iCa c) then y else 0) - (if Nat.eqb i (iC c) then y else 0).
Definition carbMu (c : Carbonate) (t p : R) (m : nat -> R) (i : nat) : R :=
  if Nat.eqb i (nlc tab) then potential liq t p m (iCa c) + potential liq t p m (iC c) - potential liq t p m (iSi c) else potential liq t p m i.
Definition carbAct (c : Carbonate) (t p : R) (m : nat -> R) (i : nat) : R :=
  if Nat.eqb i (nlc tab) then exp ((carbMu c t p m i - gSpecies c t p) / (t * Rgas)) else sAct liq t p (sR liq m) i.
Definition carbG (c : Carbonate) (t p : R) (i : nat) : R := if Nat.eqb i (nlc tab) then gSpecies c t p else sCur liq i 0%nat t p.
Variable carbonate : option Carbonate.
(** 1999-2007: nls species *)
Definition speciesRows (c : Carbonate) (t p : R) (m : nat -> R) : nat -> R :=
  let m' := speciated c t p m in
  row (fun i => unlessZero (sum (nlc tab) m) (m' i / sum (nlc tab) m)) (fun i => unlessZero (m' i) (carbAct c t p m i))
      (fun i => unlessZero (m' i) (carbG c t p i)) (fun i => unlessZero (m' i) (carbMu c t p m i)).
(** meltsgetendmemberproperties_; sAct of a solid is what activity(0, ...) writes in the shared library *)
Definition dynMembers_ (found : option (nat * Entry)) (t p : R) (grams : Arr) (props : nat) (number : nat) (mem : Mem) : nat * Mem :=
  match found with
  | None => (number, mem)
  | Some (_, Liquid) => let m := moles tab oxToElm redo true liq t p grams in
      match carbonate with
      | None => (nlc tab, store props (fill (nlc tab) (endRows liq t p m (sAct liq t p (sR liq m))) (mem props)) mem)
      | Some c => (S (nlc tab), store props (fill (S (nlc tab)) (speciesRows c t p m) (mem props)) mem)
      end
  | Some (_, Pure mw cur) => (1%nat, store props (fill 1 (row (fun _ => 1) (fun _ => 1) (fun _ => cur 0%nat t p) (fun _ => cur 0%nat t p)) (mem props)) mem)
  | Some (_, Solution s) => let m := moles tab oxToElm redo false s t p grams in
      (sNa s, store props (fill (sNa s) (endRows s t p m (sAct s t p (sR s m))) (mem props)) mem)
  end.

(** ** Weights: 359-410. The number is written unless the name is unknown (359: the pointer is cleared instead). *)
Variable beyond : nat -> nat -> R.
Variable nls : nat.
Definition readOxToLiq (o i : nat) : R := if Nat.ltb i (nlc tab) then oxToLiq tab o i else beyond o i.
Definition put (n : nat) (v : nat -> R) (old : Arr) : Arr := fun c => if Nat.ltb c n then v c else old c.
Definition weights_ (found : option (nat * nat)) (isLiquid : bool) (ptr number : nat) (mem : Mem) : nat * Mem :=
  if isLiquid then (nls, store ptr (put nls (fun i => sum (nc tab) (fun o => readOxToLiq o i * omw tab o)) (mem ptr)) mem)
  else match found with
       | None => (number, mem)
       | Some (j, 1%nat) => (1%nat, store ptr (put 1 (fun _ => smw tab j) (mem ptr)) mem)
       | Some (j, n) => (n, store ptr (put n (fun i => smw tab (j + 1 + i)) (mem ptr)) mem)
       end.
End Dyn.
