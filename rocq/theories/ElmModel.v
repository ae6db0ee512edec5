(** Model of the conversion from elements to end members, convert(FIRST, SECOND, ...), of the solutions in the solids tables.

    Sources (inpMask == FIRST): olivine.c 2559-2574, garnet.c 386-394, melilite.c 1898-1908, cummingtonite.c 1192-1199,
    amphibole.c 1545-1581, hornblende.c 243-272, biotite.c 242-248, feldspar.c 373-381, nepheline.c 1433-1449, kalsilite.c
    451-465, leucite.c 276-284, spinel.c 2764-2810, rhomsghiorso.c 2835-2862 (five components), rhombohedral.c 2264-2289
    (four components, pMELTS), ortho-oxide.c 1961-1984, fluidPhase.c 2307-2312, alloy-solid.c 233-238, alloy-liquid.c
    224-230; pyroxenes: library.c 1558-1586 (QryModel.v). RHYOLITE_ADJUSTMENTS is defined.

    Simplifications: doubles are real numbers; e is indexed by atomic number; entries of m beyond the last component are 0. *)
From Coq Require Import Reals String List Bool Arith.
From Verif Require Import MassModel QryModel.
Import ListNotations.
Open Scope R_scope.

Notation H_ := 1%nat (only parsing). Notation C_ := 6%nat (only parsing). Notation O_ := 8%nat (only parsing).
Notation F_ := 9%nat (only parsing). Notation Na_ := 11%nat (only parsing). Notation Mg_ := 12%nat (only parsing).
Notation Al_ := 13%nat (only parsing). Notation Si_ := 14%nat (only parsing). Notation Cl_ := 17%nat (only parsing).
Notation K_ := 19%nat (only parsing). Notation Ca_ := 20%nat (only parsing). Notation Ti_ := 22%nat (only parsing).
Notation Cr_ := 24%nat (only parsing). Notation Mn_ := 25%nat (only parsing). Notation Fe_ := 26%nat (only parsing).
Notation Co_ := 27%nat (only parsing). Notation Ni_ := 28%nat (only parsing).

Definition listed (l : list R) (i : nat) : R := nth i l 0.
Definition olv (e : nat -> R) := listed [e Mn_ / 2; e Fe_ / 2; e Co_ / 2; e Ni_ / 2; e Ca_; (e Mg_ - e Ca_) / 2].
Definition grn (e : nat -> R) := listed [e Fe_ / 3; e Ca_ / 3; e Mg_ / 3].
Definition mel (e : nat -> R) := listed [e Mg_; e Al_ / 2; e Fe_ + e Mn_; e Na_ / 2].
Definition cum (e : nat -> R) := listed [e Mg_ / 7; e Fe_ / 7].
Definition aph (e : nat -> R) :=
  let sumchg := e Na_ + 2 * e Mg_ + 3 * e Al_ + 4 * e Si_ + 2 * e Ca_ + 4 * e Ti_ + 2 * e Mn_ in
  let fe3 := 2 * (e O_ - e H_) + e H_ + e F_ + e Cl_ - sumchg - 2 * e Fe_ in
  let fe2 := e Fe_ - fe3 in
  let '(fe3, fe2) := if Rlt_dec fe3 0 then (0.01 * e Fe_, 0.99 * e Fe_) else (fe3, fe2) in
  let '(fe3, fe2) := if Rlt_dec fe2 0 then (0.99 * e Fe_, 0.01 * e Fe_) else (fe3, fe2) in
  listed [(e Mg_ - 5 * e Ca_ / 2) / 7; fe2 / 7; e Ca_ / 2].
Definition hrn (e : nat -> R) :=
  let sumcat := e Na_ + e Mg_ + e Al_ + e Si_ + e K_ + e Ca_ + e Ti_ + e Cr_ + e Mn_ + e Fe_ in
  let sumchg := e Na_ + 2 * e Mg_ + 3 * e Al_ + 4 * e Si_ + e K_ + 2 * e Ca_ + 4 * e Ti_ + 3 * e Cr_ + 2 * e Mn_ in
  let fe3 := 23 * sumcat / 8 - sumchg - 2 * e Fe_ in
  let fe2 := e Fe_ - fe3 in
  let '(fe3, fe2) := if Rlt_dec fe3 (0.01 * e Fe_) then (0.01 * e Fe_, 0.99 * e Fe_) else (fe3, fe2) in
  let '(fe3, fe2) := if Rlt_dec fe2 (0.01 * e Fe_) then (0.99 * e Fe_, 0.01 * e Fe_) else (fe3, fe2) in
  listed [e Mg_; fe2 / 4; fe3].
Definition bio (e : nat -> R) := listed [e Fe_ / 3; e Mg_ / 3].
Definition fld (e : nat -> R) := listed [e Na_; e Ca_; e K_].
Definition nph (e : nat -> R) :=
  let divalent := e Ca_ + e Mg_ in
  let vacancy := (e Al_ + e Fe_ + e Si_) / 2 - e Na_ - e K_ - divalent in
  listed [(e Na_ - 3 * vacancy + divalent) / 4; e K_ / 4; vacancy - divalent; divalent].
Definition kal (e : nat -> R) :=
  let divalent := e Ca_ in
  let vacancy := (e Al_ + e Si_) / 2 - e Na_ - e K_ - divalent in
  listed [(e Na_ - 3 * vacancy + divalent) / 4; e K_ / 4; vacancy - divalent; divalent].
Definition leu (e : nat -> R) := listed [e K_; e H_ / 2; e Na_ - e H_ / 2].
Definition oxideCat (e : nat -> R) : R := e Mg_ + e Al_ + e Ti_ + e Cr_ + e Mn_ + e Fe_ + e Co_ + e Ni_.
Definition oxideChg (e : nat -> R) : R := 2 * e Mg_ + 3 * e Al_ + 4 * e Ti_ + 3 * e Cr_ + 2 * e Mn_ + 2 * e Co_ + 2 * e Ni_.
Definition spn (e : nat -> R) :=
  let sumcat := oxideCat e in
  let fe3 := 8 * sumcat / 3 - oxideChg e - 2 * e Fe_ in
  let fe2 := e Fe_ - fe3 in
  let '(fe3, fe2, fTet, fOct) :=
    if Rlt_dec fe3 0 then
      (DBL_EPSILON, e Fe_, (if Rlt_dec 0 (e Fe_ + e Mg_) then (1 / 3 * sumcat + e Ti_) / (e Fe_ + e Mg_) else 1),
       (if Rlt_dec 0 (2 * e Ti_ + e Al_ + e Cr_) then 2 / 3 * sumcat / (2 * e Ti_ + e Al_ + e Cr_) else 1))
    else (fe3, fe2, 1, 1) in
  let proj := if Req_EM_T (fe2 + e Mg_ + e Mn_) 0 then 1 else (fe2 + e Mn_ + e Mg_ + e Co_ + e Ni_) / (fe2 + e Mg_ + e Mn_) in
  let m1 := (fe2 * fTet + e Mn_ * fTet - e Cr_ * fOct / 2 - fe3 / 2 - 2 * e Ti_ * fOct) * proj in
  let m1 := if Rlt_dec m1 0 then (if Rlt_dec (Rabs m1) (sqrt DBL_EPSILON) then 0 else m1) else m1 in
  listed [e Cr_ * fOct / 2; m1; fe3 / 2; e Mg_ * proj * fTet; e Ti_ * fOct].
Definition pos (x : R) : R := if Rlt_dec x 0 then 0 else x.
Definition msg (e : nat -> R) :=
  let fe3 := 6 * oxideCat e / 2 - oxideChg e - 2 * e Fe_ in
  let fe2 := e Fe_ - fe3 in
  listed [e Mg_; pos (fe3 / 2); pos fe2; e Mn_ + e Co_ + e Ni_; (e Al_ + e Cr_) / 2].
Definition rhm (e : nat -> R) :=
  let fe3 := 6 * oxideCat e / 2 - oxideChg e - 2 * e Fe_ in
  let fe2 := e Fe_ - fe3 in
  listed [e Mg_; pos ((fe3 + e Al_ + e Cr_) / 2); fe2; e Mn_ + e Co_ + e Ni_].
Definition oox (e : nat -> R) :=
  let fe3 := pos (10 * oxideCat e / 3 - oxideChg e - 2 * e Fe_) in
  let fe2 := e Fe_ - fe3 in
  listed [fe3 / 2; fe2; e Mg_].
Definition flu (e : nat -> R) := listed [e H_ / 2; e C_].
Definition alloy (e : nat -> R) := listed [e Fe_; e Ni_].

(** The convert pointers of includes/sol_struct_data.h by label and number of components, with the branch of library.c
    1552-1592 = 2031-2078 for the pyroxenes *)
Definition fromElements (label : string) (n : nat) : option ((nat -> R) -> nat -> R) :=
  let is (s : string) := String.eqb label s in
  if is "clinopyroxene"%string || is "orthopyroxene"%string then Some pyrElem
  else if is "olivine"%string then Some olv else if is "garnet"%string then Some grn else if is "melilite"%string then Some mel
  else if is "cummingtonite"%string then Some cum else if is "amphibole"%string then Some aph else if is "hornblende"%string then Some hrn
  else if is "biotite"%string then Some bio else if is "feldspar"%string then Some fld else if is "nepheline"%string then Some nph
  else if is "kalsilite"%string then Some kal else if is "leucite"%string then Some leu else if is "spinel"%string then Some spn
  else if is "rhm-oxide"%string then Some (if Nat.eqb n 5 then msg else rhm)
  else if is "ortho-oxide"%string then Some oox else if is "fluid"%string then Some flu
  else if is "alloy-solid"%string || is "alloy-liquid"%string then Some alloy
  else None.
