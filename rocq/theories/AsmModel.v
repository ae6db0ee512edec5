(** Model of the entry of assimilants through the object of the graphical program.

    Sources: src/melts_interface.cpp ClearAllAssimilants 425-456, AddAssimilant 460-519, InitAssimilantTData 521-603.

    Simplifications: doubles are real numbers (the test for a mass that is not a number, 464-467, is left out); the one
    column that is allocated (480-486) is column 0 of [MassModel.Assim]; [em] is the argument end_members. In
    InitAssimilantTData the properties of rows and of mixing at the temperature of the assimilant and the pressure of the
    system are parameters, one property (enthalpy, entropy or volume) at a time. *)
From Coq Require Import Reals Arith Bool.
From Verif Require Import MassModel.
Open Scope R_scope.

Record Asm : Type := mkAsm {
  asg : Assim;                  (* nAssimComp, assimComp *)
  stepMass : R;                 (* dspAssimMass *)
  liqPart : R                   (* dspAssimLiqM *)
}.
(** 425-456: the arrays are freed and allocated again, zeroed, by the next AddAssimilant 476-487 *)
Definition clearAll : Asm := mkAsm (mkAssim (fun _ => O) O (fun _ _ => 0) (fun _ _ => 0)) 0 0.

Section Add.
Variable tab : Tab.

(** 493-506 *)
Definition addSolid (ph : nat) (mass : R) (em : nat -> R) (g : Assim) : Assim :=
  if Nat.eqb (na tab ph) 1 then
    mkAssim (nAss g) (nAssLiq g) (upd2 (assC g) ph 0 (assC g ph 0%nat + mass / smw tab ph)) (assL g)
  else
    let mw := loop (na tab ph) (fun j x => x + em (j+1)%nat * smw tab (ph+1+j) / 100) 0 in
    let moles := if Req_EM_T mw 0 then 0 else mass / mw in
    let c := loop (na tab ph) (fun j c => upd2 c (ph+1+j) 0 (c (ph+1+j)%nat 0%nat + em (j+1)%nat * moles / 100)) (assC g) in
    mkAssim (nAss g) (nAssLiq g) (upd2 c ph 0 (c ph 0%nat + moles)) (assL g).
(** 507-513 *)
Definition setLiquid (mass : R) (em : nat -> R) (g : Assim) : Assim :=
  let mm := fun o => if Req_EM_T (em o) 0 then 0 else em o * mass / (100 * omw tab o) in
  mkAssim (nAss g) (nAssLiq g) (assC g)
    (fun j ns => if Nat.ltb j (nlc tab) && Nat.eqb ns 0
                 then loop (nc tab) (fun o x => x + mm o * oxToLiq tab o j) 0 else assL g j ns).
(** 460-519 *)
Definition addAssimilant (ph : nat) (mass : R) (em : nat -> R) (a : Asm) : Asm :=
  let total := stepMass a + mass in
  let isLiq := Nat.eqb ph (npc tab) in
  let total := if isLiq then total - liqPart a else total in
  let lm := if isLiq then mass else liqPart a in
  let g := asg a in
  (* 489-490 *)
  let g := if isLiq then mkAssim (nAss g) 1 (assC g) (assL g) else g in
  let g := if Nat.ltb ph (npc tab) then mkAssim (upd (nAss g) ph 1%nat) (nAssLiq g) (assC g) (assL g) else g in
  let g := if Nat.ltb ph (npc tab) then addSolid ph mass em g else g in
  let g := if isLiq then setLiquid mass em g else g in
  mkAsm g total lm.

(** ** InitAssimilantTData 521-603 *)
(** a property of one mole of row c of the solids, and of component j of the liquid; of mixing one mole with the
    composition given by the moles of the rows of solution i; of mixing one mole of liquid *)
Variable pureS : nat -> R.
Variable pureL : nat -> R.
Variable mixS : nat -> (nat -> R) -> R.
Variable mixL : (nat -> R) -> R.
(** the value of the variable totalMoles of line 566, which is never assigned: the [for] of 567 declares another *)
Variable garbage : R.
(** 538-559 *)
Definition solidProp (g : Assim) (i ns : nat) : R :=
  if Nat.eqb (na tab i) 1 then assC g i ns * pureS i
  else
    let m := fun j => assC g (i+1+j)%nat ns in
    let x := mixS i m in
    let x := x * assC g i ns in
    loop (na tab i) (fun j x => x + m j * pureS (i+1+j)%nat) x.
(** 565-583 *)
Definition liquidProp (g : Assim) (ns : nat) : R :=
  let m := fun j => assL g j ns in
  let x := mixL m in
  let x := x * garbage in
  loop (nlc tab) (fun j x => x + m j * pureL j) x.
(** 535-537, 560-565, 584-592: None when there is no mass to assimilate (524) *)
Definition assimProp (a : Asm) : option R :=
  if Req_EM_T (stepMass a) 0 then None
  else
    let g := asg a in
    let t := loop (npc tab) (fun i t => if isPhase tab i then loop (nAss g i) (fun ns t => t + solidProp g i ns) t else t) 0 in
    Some (loop (nAssLiq g) (fun ns t => t + liquidProp g ns) t).
End Add.
