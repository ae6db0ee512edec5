(** * The path taken by a run: end points, increments, assimilation (model)

    The part of the driver that decides, after every equilibration, whether the run goes on
    and at which temperature, pressure, enthalpy, entropy or volume.

    Two drivers exist.  Without EASYMELTS_UPDATE_SYSTEM it is the end of the UPDATE_SYSTEM
    case of silmin() (sources/silmin.c 1981-2189, BATCH_VERSION branches); with it, it is
    MeltsInterface::SetIncrements (src/melts_interface.cpp 695-719). *)

From Coq Require Import Reals List Arith Bool ZArith.
From Coq Require Import Floats.SpecFloat.
Import ListNotations.
Open Scope R_scope.

(** The fields of SilminState that steer the run and that no step changes
    (includes/silmin.h; dspTstop ... dspAssimInc). *)
Record Cfg := MkCfg {
  Tstop : R; Tinc : R;
  Hstop : R; Hinc : R;
  Sstop : R; Sinc : R;
  Pstop : R; Pinc : R;
  Vstop : R; Vinc : R;
  isenthalpic : bool; isentropic : bool; isochoric : bool;
  assimilate : bool; dspAssimMass : R; dspAssimInc : R;
  assimH : R; assimS : R; assimV : R       (* assimTD.h, .s, .v *)
}.

(** The fields that steps change. *)
Record St := MkSt {
  sT : R; sP : R; Tstart : R; Pstart : R;
  refH : R; refS : R; refV : R;
  assimMass : R; assimInc : nat
}.

Definition withT (s : St) (t : R) : St :=
  MkSt t (sP s) (Tstart s) (Pstart s) (refH s) (refS s) (refV s) (assimMass s) (assimInc s).
Definition withTstart (s : St) (t : R) : St :=
  MkSt (sT s) (sP s) t (Pstart s) (refH s) (refS s) (refV s) (assimMass s) (assimInc s).
Definition withP (s : St) (p : R) : St :=
  MkSt (sT s) p (Tstart s) (Pstart s) (refH s) (refS s) (refV s) (assimMass s) (assimInc s).
Definition withPstart (s : St) (p : R) : St :=
  MkSt (sT s) (sP s) (Tstart s) p (refH s) (refS s) (refV s) (assimMass s) (assimInc s).
Definition withH (s : St) (h : R) : St :=
  MkSt (sT s) (sP s) (Tstart s) (Pstart s) h (refS s) (refV s) (assimMass s) (assimInc s).
Definition withS (s : St) (x : R) : St :=
  MkSt (sT s) (sP s) (Tstart s) (Pstart s) (refH s) x (refV s) (assimMass s) (assimInc s).
Definition withV (s : St) (v : R) : St :=
  MkSt (sT s) (sP s) (Tstart s) (Pstart s) (refH s) (refS s) v (assimMass s) (assimInc s).
Definition withAssim (s : St) (m : R) : St :=
  MkSt (sT s) (sP s) (Tstart s) (Pstart s) (refH s) (refS s) (refV s) m (S (assimInc s)).

(** C comparisons of doubles. *)
Definition Rltb (x y : R) : bool := if Rlt_dec x y then true else false.
Definition Rgeb (x y : R) : bool := if Rle_dec y x then true else false.
Definition Reqb (x y : R) : bool := if Req_EM_T x y then true else false.
Definition nonzero (x : R) : bool := negb (Reqb x 0).

(** [(inc != 0.0 ? inc : small)] (silmin.c 1983, 2001, ...) *)
Definition orSmall (inc small : R) : R := if nonzero inc then inc else small.

Section Step.

(** correctTforChangeInEnthalpy, correctTforChangeInEntropy and correctPforChangeInVolume
    (sources/silmin_support.c 1729-1995) leave a new temperature (pressure) behind; here any
    value at all, depending on the step and the state.  [CorrectModel] below models their
    loop. *)
Variable correctTH correctTS correctPV : nat -> St -> R.
Variable c : Cfg.

(** [isenthalpic && refEnthalpy != 0.0] and its two siblings. *)
Definition atH (s : St) : bool := isenthalpic c && nonzero (refH s).
Definition atS (s : St) : bool := isentropic c && nonzero (refS s).
Definition atV (s : St) : bool := isochoric c && nonzero (refV s).

Definition farT (s : St) : bool := Rgeb (Rabs (Tstart s - Tstop c)) (orSmall (Tinc c) (1/1000)).
Definition farP (s : St) : bool := Rgeb (Rabs (Pstart s - Pstop c)) (orSmall (Pinc c) (1/1000)).

(** silmin.c 1991-1996, the BATCH_VERSION branch. *)
Definition moveT (s : St) : St :=
  if Rltb (Tstart s - Tstop c) 0
  then withTstart (withT s (sT s + Tinc c)) (Tstart s + Tinc c)
  else withTstart (withT s (sT s - Tinc c)) (Tstart s - Tinc c).

Definition moveH (n : nat) (s : St) : St :=
  let s1 := withH s (refH s + Hinc c) in withT s1 (correctTH n s1).
Definition moveS (n : nat) (s : St) : St :=
  let s1 := withS s (refS s + Sinc c) in withT s1 (correctTS n s1).
Definition moveV (n : nat) (s : St) : St :=
  let s1 := withV s (refV s + Vinc c) in withP s1 (correctPV n s1).

(** silmin.c 1983-2063: the chain "Changing T ?", "Changing H ?", "Changing S ?". *)
Definition stepT (n : nat) (s : St) : bool * St :=
  if farT s && negb (atH s) && negb (atS s) then (true, moveT s)
  else if Rltb 0 (Rabs (Hstop c))
          && Rgeb (Rabs (Hstop c - refH s)) (orSmall (Rabs (Hinc c)) (1/1000))
          && atH s then (true, moveH n s)
  else if Reqb (Hstop c) 0 && farP s && atH s then (true, moveH n s)
  else if Reqb (Hstop c) 0 && nonzero (Hinc c) && atH s then
         if (if Rltb (Hinc c) 0 then Rltb (Tstart s - Tstop c) 0 else Rltb 0 (Tstart s - Tstop c))
         then (true, moveH n s) else (false, s)
  else if Rltb 0 (Rabs (Sstop c))
          && Rgeb (Rabs (Sstop c - refS s)) (orSmall (Rabs (Sinc c)) (1/1000))
          && atS s then (true, moveS n s)
  else if Reqb (Sstop c) 0 && farP s && atS s then (true, moveS n s)
  else if Reqb (Sstop c) 0 && nonzero (Sinc c) && atS s then
         if (if Rltb 0 (Sinc c) then Rltb (Tstart s - Tstop c) 0 else Rltb 0 (Tstart s - Tstop c))
         then (true, moveS n s) else (false, s)
  else (false, s).

(** silmin.c 2074-2079 *)
Definition moveP (s : St) : St :=
  if Rltb (Pstart s - Pstop c) 0
  then withPstart (withP s (sP s + Pinc c)) (Pstart s + Pinc c)
  else withPstart (withP s (sP s - Pinc c)) (Pstart s - Pinc c).

(** silmin.c 2065-2117: "Changing P ?", "Changing V ?". *)
Definition stepP (n : nat) (s : St) : bool * St :=
  if farP s && negb (atV s) then (true, moveP s)
  else if Rltb 0 (Rabs (Vstop c))
          && Rgeb (Rabs (Vstop c - refV s)) (orSmall (Rabs (Vinc c)) (1/10000))
          && atV s then (true, moveV n s)
  else if Reqb (Vstop c) 0 && farT s && atV s then (true, moveV n s)
  else if Reqb (Vstop c) 0 && nonzero (Vinc c) && atV s then
         if (if Rltb (Vinc c) 0 then Rltb (Pstart s - Pstop c) 0 else Rltb 0 (Pstart s - Pstop c))
         then (true, moveV n s) else (false, s)
  else (false, s).

(** silmin.c 2119-2186: assimilation.  The transfer of the assimilant's oxides and
    components is modelled in [MassModel] (C44); here the bookkeeping that decides how often it
    happens.  The flags are read with the reference values already updated, as in the code. *)
Definition stepA (n : nat) (s : St) : bool * St :=
  if assimilate c && Rltb (assimMass s) (dspAssimMass c) then
    let fraction := 1 / dspAssimInc c in
    let s1 := withAssim s (assimMass s + fraction * dspAssimMass c) in
    let s2 := if atH s1 then withH s1 (refH s1 + fraction * assimH c) else s1 in
    let s3 := if atS s2 then withS s2 (refS s2 + fraction * assimS c) else s2 in
    let s4 := if atV s3 then withV s3 (refV s3 + fraction * assimV c) else s3 in
    let s5 := if atH s4 then withT s4 (correctTH n s4) else s4 in
    let s6 := if atS s5 then withT s5 (correctTS n s5) else s5 in
    let s7 := if atV s6 then withP s6 (correctPV n s6) else s6 in
    (true, s7)
  else (false, s).

(** silmin.c 1977-2200: [stateChange] and the new state; [return (!stateChange)]. *)
Definition step (n : nat) (s : St) : bool * St :=
  let (b1, s1) := stepT n s in
  let (b2, s2) := stepP n s1 in
  let (b3, s3) := stepA n s2 in
  (b1 || b2 || b3, s3).

(** Between two steps silmin() equilibrates the system: an arbitrary change of the state. *)
Variable solve : nat -> St -> St.

(** The state as equilibrated for the n-th time, in a run that starts at [s]. *)
Fixpoint visited (s : St) (n : nat) : St :=
  match n with
  | O => solve O s
  | S m => solve n (snd (step m (visited s m)))
  end.

(** Whether the run goes on after the n-th equilibration. *)
Definition goesOn (s : St) (n : nat) : bool := fst (step n (visited s n)).

End Step.

(** ** The loop of correctTforChangeInEnthalpy, ...Entropy, correctPforChangeInVolume
       (sources/silmin_support.c 1729-1995)

    [value k x] and [slope k x] are what the k-th iteration computes as total enthalpy and heat
    capacity at temperature x (the composition may have been changed by the oxygen buffer in
    between, hence the index); [update x r d] is the new temperature: [x - r/d] for enthalpy and
    volume, [x - r*x/d] for entropy.  [residual] starts at DBL_MAX, so the first test succeeds
    unless the reference is so large that the tolerance reaches it; here the first iteration is
    always taken (simplification: |ref| * 10 * DBL_EPSILON < DBL_MAX). *)
Section Correct.
Variable value slope : nat -> R -> R.
Variable update : R -> R -> R -> R.
Variable ref : R.

(** 10.0*DBL_EPSILON*fabs(ref) *)
Definition tol : R := 10 * / 2 ^ 52 * Rabs ref.

(** [fuel] iterations are left of the fifty; the result is the final temperature, the
    temperature at which the residual was last computed and the number of iterations. *)
Fixpoint correctLoop (fuel k : nat) (x : R) : R * (R * nat) :=
  let residual := value k x - ref in
  let x1 := update x residual (slope k x) in
  match fuel with
  | O => (x1, (x, S k))
  | S f => if Rltb tol (Rabs residual) then correctLoop f (S k) x1 else (x1, (x, S k))
  end.

Definition correct (x : R) : R * (R * nat) := correctLoop 49 0 x.
End Correct.

Definition updHV (x r d : R) : R := x - r / d.
Definition updS (x r d : R) : R := x - r * x / d.

(** ** MeltsInterface::SetIncrements (src/melts_interface.cpp 695-719)

    dspTstop, dspPstart, dspPstop, dspHstop, dspSstop, dspVstop are display values that
    nothing in this build reads back for the calculation; not represented. *)
Record Inc := MkInc { incT : R; incP : R; incH : R; incS : R; incV : R }.

Section SetInc.
Variable correctTH correctTS correctPV : nat -> St -> R.

Definition setIncrements (i : Inc) (n : nat) (s : St) : St :=
  let s1 := withP (withT s (sT s + incT i)) (sP s + incP i) in
  let s2 := withH s1 (refH s1 + incH i) in
  let s3 := if Rltb 0 (Rabs (incH i)) then withT s2 (correctTH n s2) else s2 in
  let s4 := withS s3 (refS s3 + incS i) in
  let s5 := if Rltb 0 (Rabs (incS i)) then withT s4 (correctTS n s4) else s4 in
  let s6 := withV s5 (refV s5 + incV i / 10) in
  if Rltb 0 (Rabs (incV i)) then withP s6 (correctPV n s6) else s6.

Variable solve : nat -> St -> St.
Fixpoint visitedI (i : Inc) (s : St) (n : nat) : St :=
  match n with
  | O => solve O s
  | S m => solve n (setIncrements i m (visitedI i s m))
  end.
End SetInc.

(** ** The same assimilation bookkeeping in IEEE double precision

    silmin.c 2120-2124 with the arithmetic of the machine ([SFdiv], [SFmul], [SFadd], [SFltb]
    of the standard library with 53 bits and maximal exponent 1024, rounding to nearest even).
    The result counts the additions made, at most [fuel]. *)
Definition fdiv := SFdiv 53 1024.
Definition fmul := SFmul 53 1024.
Definition fadd := SFadd 53 1024.
Definition fone : spec_float := S754_finite false 4503599627370496 (-52).

Fixpoint assimLoopF (fuel : nat) (dspMass dspInc mass : spec_float) : nat * spec_float :=
  match fuel with
  | O => (O, mass)
  | S f => if SFltb mass dspMass
           then let fraction := fdiv fone dspInc in
                let (k, m) := assimLoopF f dspMass dspInc (fadd mass (fmul fraction dspMass)) in
                (S k, m)
           else (O, mass)
  end.
