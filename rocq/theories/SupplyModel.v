(** Model of how the library takes in a bulk composition.

    Sources: sources/library.c meltsprocess_ 676-722 and
    meltssaturationstate_ 2316-2372.

    Simplifications: doubles are real numbers; the state is that of
    MassModel.v plus the field liquidMass; the loops that write each cell once
    are simultaneous updates (as in MassModel.v). The oxygen total, written
    here and read only when a report is printed, is kept. *)
From Coq Require Import Reals List Lia Lra Bool Arith.
From Verif Require Import MassModel.
Open Scope R_scope.

Record Node : Type := mkNode { matter : St; liquidMass : R }.

Section Supply.
Variable tab : Tab.

(** library.c 681-686, 2321-2326: update = TRUE when some bulkComp is not 0.
    (For a node that has just been created every bulkComp is 0.) *)
Fixpoint anyNonzero (n : nat) (f : nat -> R) : bool :=
  match n with
  | O => false
  | S m => if Req_EM_T (f m) 0 then anyNonzero m f else true
  end.
Definition isUpdate (s : St) : bool := anyNonzero (nc tab) (bulk s).

(** library.c 695-709, 2335-2349 *)
Definition supplyUpdate (comp : nat -> R) (n : Node) : Node :=
  let s := matter n in
  let changeBC := fun o => comp o / omw tab o - bulk s o in
  let lm := liquidMass n + sum (nc tab) (fun o => comp o - bulk s o * omw tab o) in
  let s := addBulk tab changeBC s in
  let s := setOxy (oxy s + sum (nlc tab) (fun j => sum (nc tab)
                     (fun o => changeBC o * oxToLiq tab o j * o2Liq tab j))) s in
  let s := addLiq tab 0 (fun j => sum (nc tab) (fun o => changeBC o * oxToLiq tab o j)) s in
  mkNode s lm.

(** library.c 710-722, 2360-2372; the oxygen total is reset for every liquid
    component (line 717), so that only the last one is counted. *)
Definition supplyFresh (comp : nat -> R) (n : Node) : Node :=
  let s := matter n in
  let s := setBulk (fun o => if Nat.ltb o (nc tab) then comp o / omw tab o else bulk s o) s in
  let lm := sum (nc tab) comp in
  let s := match nlc tab with
           | O => s
           | S j => setOxy (sum (nc tab) (fun o => bulk s o * oxToLiq tab o j * o2Liq tab j)) s
           end in
  let s := putLiq tab 0 (fun j => sum (nc tab) (fun o => bulk s o * oxToLiq tab o j)) s in
  mkNode s lm.

(** meltsprocess_ 695-722, then silmin.c 401: hasLiquid is liquidMass != 0. *)
Definition enter (n : Node) : Node :=
  mkNode (setHas (if Req_EM_T (liquidMass n) 0 then false else true) (matter n)) (liquidMass n).
Definition processSupply (comp : nat -> R) (n : Node) : Node :=
  enter (if isUpdate (matter n) then supplyUpdate comp n else supplyFresh comp n).

(** meltssaturationstate_ 2350-2359: the composition is taken afresh after all
    when an oxide is below MASSOUT or a liquid component holding an oxide of
    the bulk is not positive. [bulkSystem[i].type != FE2O3] is [isFe2O3]. *)
Fixpoint anyBelow (n : nat) (p : nat -> bool) : bool :=
  match n with O => false | S m => orb (anyBelow m p) (p m) end.
Definition tooSmall (s : St) (o : nat) : bool :=
  if Req_EM_T (bulk s o) 0 then false
  else if isFe2O3 tab o then false
  else if Rlt_dec (bulk s o) MASSOUT then true
  else anyBelow (nlc tab) (fun j => if Req_EM_T (liqToOx tab j o) 0 then false
                                     else if Rle_dec (liqC s 0 j) 0 then true else false).
Definition saturationSupply (comp : nat -> R) (n : Node) : Node :=
  if isUpdate (matter n) then
    let n1 := supplyUpdate comp n in
    if anyBelow (nc tab) (tooSmall (matter n1)) then supplyFresh comp n1 else n1
  else supplyFresh comp n.
End Supply.
