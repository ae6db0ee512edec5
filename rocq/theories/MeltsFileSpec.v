(** What "the file restores the run settings" means (properties C23-C26). *)
From Coq Require Import Ascii String List Bool Arith ZArith QArith Qcanon.
From Verif Require Import Str Num MeltsFileModel.
Import ListNotations.
Local Open Scope nat_scope.

(** phase labels are lower-case words, pairwise different *)
Definition label_char (c : ascii) : bool :=
  let n := N_of_ascii c in
  (((97 <=? n) && (n <=? 122)) || ((48 <=? n) && (n <=? 57)) || (n =? 45))%N.
Definition phase_labels (sol : list solid) : list str :=
  map fst (filter (fun e => snd e) sol).
Definition table_ok (sol : list solid) : Prop :=
  NoDup (phase_labels sol) /\ forall l, In l (phase_labels sol) -> forallb label_char l = true.

(** the increments that matter in the current calculation mode (the interface
    shows and saves only these) agree *)
Definition same_increments (a b : settings) : Prop :=
  if isH a then incP b = incP a /\ incH b = incH a
  else if isS a then incP b = incP a /\ incS b = incS a
  else if isV a then incT b = incT a /\ incV b = incV a
  else incT b = incT a /\ incP b = incP a.

Definition same_settings (a b : settings) : Prop :=
  bulk b = bulk a /\ tK b = tK a /\ pbar b = pbar a /\ same_increments a b /\
  fo2Path b = fo2Path a /\ fo2Delta b = fo2Delta a /\ incSol b = incSol a /\
  frSol b = frSol a /\ frLiq b = frLiq a /\ frFlu b = frFlu a /\ multi b = multi a /\
  isH b = isH a /\ isS b = isS a /\ isV b = isV a.

(** the numbers are on the decimal grid the file is written with: grams to
    1e-4, T (Celsius, not negative), P and increments to 1e-2, offset to 0.1 *)
Definition printable (mw : list Qc) (a : settings) : Prop :=
  Forall2 (fun w b => w <> zero /\ on_grid 4 (b * w)%Qc) mw (bulk a) /\
  length (bulk a) = 19 /\
  on_grid 2 (tK a - k27315)%Qc /\ (k27315 <= tK a)%Qc /\ on_grid 2 (pbar a) /\
  on_grid 2 (incT a) /\ on_grid 2 (incP a) /\ on_grid 2 (incH a) /\
  on_grid 2 (incS a) /\ on_grid 2 (incV a) /\ on_grid 1 (fo2Delta a).
