(** Model of the library's settings call: sources/library.c
    meltssetsystemproperty_ 1321-1389 (after the node has been looked up, see
    NodeModel.v).

    Characters are modelled one by one. The local buffer [line] is filled for
    the first min(len, REC) characters and is uninitialised after that, as in
    the code: its other cells are the parameter [garbage]. Reading past the
    end of the buffer (possible only when a comparison length is negative, see
    [limit]) is treated as reading more of [garbage]. *)
From Coq Require Import Ascii String List Bool Arith ZArith Lia.
From Verif Require Import Str.
Import ListNotations.

(** library.c:18 *)
Definition REC : nat := 134.

Definition NUL : ascii := ascii_of_nat 0.

(** !strncmp(mem + i, l, n): equal up to n characters or the end of both. *)
Fixpoint eqn (n : nat) (mem : nat -> ascii) (i : nat) (l : str) : bool :=
  match n with
  | O => true
  | S n' => match l with
            | [] => Ascii.eqb (mem i) NUL
            | c :: l' => Ascii.eqb (mem i) c && eqn n' mem (S i) l'
            end
  end.
(** MIN(len - off, k) as passed to strncmp: a negative int becomes a huge
    size_t, so that the comparison runs to the end of the literal. *)
Definition limit (len off k : nat) (l : str) : nat :=
  if Nat.ltb len off then S (length l) else Nat.min (len - off) k.
Definition matches (mem : nat -> ascii) (len off k : nat) (w : string) : bool :=
  eqn (limit len off k (lit w)) mem off (lit w).

(** The settings of a node that this call can change (includes/silmin.h
    699-720); [inc] is incSolids, with position [npc] for the liquid. *)
Record Settings : Type := mkSet {
  fo2Path : Z; frSol : bool; frLiq : bool; frFlu : bool; inc : nat -> bool
}.
Definition setFo2 (z : Z) (s : Settings) := mkSet z (frSol s) (frLiq s) (frFlu s) (inc s).
Definition setInc (j : nat) (b : bool) (s : Settings) :=
  mkSet (fo2Path s) (frSol s) (frLiq s) (frFlu s) (fun i => if Nat.eqb i j then b else inc s i).

(** A row of the table of solids: label, type == PHASE, and whether
    nr == 0 or convert is there (1369). *)
Record Solid : Type := mkSolid { label : str; isPhase : bool; usable : bool }.

(** 1366-1376: the first phase with exactly this label; j counts phases *)
Fixpoint suppress (mem : nat -> ascii) (len : nat) (tbl : list Solid) (j : nat) (s : Settings) : Settings :=
  match tbl with
  | [] => s
  | r :: tbl' =>
      if isPhase r then
        if Z.eqb (Z.of_nat len - 10 - Z.of_nat (length (label r))) 0
           && eqn (length (label r)) mem 10 (label r)
        then (if usable r then setInc j false s else s)
        else suppress mem len tbl' (S j) s
      else suppress mem len tbl' j s
  end.
(** 1356-1357: incSolids = TRUE for every phase, by phase number *)
Fixpoint includeAll (n : nat) (s : Settings) : Settings :=
  match n with O => s | S m => setInc m true (includeAll m s) end.
Definition phaseCount (tbl : list Solid) : nat := length (filter isPhase tbl).

(** 1327-1346: the words in the order tested, with the number of characters
    compared and the FO2_xxx value (includes/silmin.h 637-656). *)
Definition fo2Words : list (string * nat * Z) :=
  [("none"%string, 4%nat, 0%Z); ("fmq"%string, 3%nat, 3%Z); ("coh"%string, 3%nat, 4%Z); ("nno"%string, 3%nat, 2%Z); ("iw"%string, 2%nat, 5%Z); ("hm"%string, 2%nat, 1%Z);
   ("+3fmq"%string, 5%nat, 6%Z); ("+2fmq"%string, 5%nat, 7%Z); ("+1fmq"%string, 5%nat, 8%Z);
   ("-1fmq"%string, 5%nat, 9%Z); ("-2fmq"%string, 5%nat, 10%Z); ("-3fmq"%string, 5%nat, 11%Z); ("-4fmq"%string, 5%nat, 12%Z); ("-5fmq"%string, 5%nat, 13%Z);
   ("-6fmq"%string, 5%nat, 14%Z); ("-7fmq"%string, 5%nat, 15%Z); ("-8fmq"%string, 5%nat, 16%Z); ("-9fmq"%string, 5%nat, 17%Z);
   ("+0.5fmq"%string, 5%nat, 18%Z); ("+1.5fmq"%string, 5%nat, 19%Z)].
Fixpoint firstWord (mem : nat -> ascii) (len : nat) (ws : list (string * nat * Z)) (s : Settings) : Settings :=
  match ws with
  | [] => s
  | (w, k, z) :: ws' => if matches mem len 14 k w then setFo2 z s else firstWord mem len ws' s
  end.

(** 1321-1389. [npc] is the length of the table. *)
Definition setProperty (garbage : nat -> ascii) (tbl : list Solid) (property : str) (s : Settings) : Settings :=
  let len := length property in
  let low := lower property in
  let mem := fun i => if Nat.ltb i (Nat.min len REC) then nth i low NUL else garbage i in
  if matches mem len 0 14 "log fo2 path: " then firstWord mem len fo2Words s
  else if matches mem len 0 10 "suppress: " then
    if matches mem len 10 4 "none" then setInc (length tbl) true (includeAll (phaseCount tbl) s)
    else if matches mem len 10 6 "liquid" then setInc (length tbl) false s
    else suppress mem len tbl 0 s
  else if matches mem len 0 6 "mode: " then
    if matches mem len 6 18 "fractionate solids" then mkSet (fo2Path s) true (frLiq s) (frFlu s) (inc s)
    else if matches mem len 6 19 "fractionate liquids" then mkSet (fo2Path s) (frSol s) true (frFlu s) (inc s)
    else if matches mem len 6 18 "fractionate fluids" then mkSet (fo2Path s) (frSol s) (frLiq s) true (inc s)
    else if matches mem len 10 18 "fractionate none" then mkSet (fo2Path s) false false false (inc s)
    else s
  else s.
