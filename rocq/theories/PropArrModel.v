(** Model of the settings call that takes an array of strings: sources/library.c setMeltsSystemProperties 1392-1430.

    The array is one block of characters, numberStrings fields of nCharInString (FORTRAN order). The buffer is the memory from
    the allocated address on: the cells after the first nCharInString belong to something else and hold anything; this call
    does not write them. What meltssetsystemproperty_ receives is the C string that starts there. The failed setjmp (an error
    signal) and allocation failure are left out, nCharInString is at least 1; a C string that never ends makes the call
    undefined: the relation then holds of no result. *)
From Coq Require Import Ascii String List Bool Arith Lia.
From Verif Require Import Str PropStrModel.
Import ListNotations.

Definition Mem := nat -> ascii.
Definition put (k : nat) (c : ascii) (m : Mem) : Mem := fun i => if Nat.eqb i k then c else m i.
Definition blank : ascii := " "%char.

(** 1409-1416, from character [j] on, [left] characters to go; [field] is strings+i*nCh *)
Fixpoint copyFrom (field : Mem) (left j : nat) (m : Mem) : Mem :=
  match left with
  | O => m
  | S left' =>
      if Ascii.eqb (field j) blank && Ascii.eqb (field (j - 1)%nat) blank then put (j - 1) NUL m
      else copyFrom field left' (S j) (put j (field j) m)
  end.
(** 1408-1416 *)
Definition copyField (field : Mem) (nCh : nat) (m : Mem) : Mem := copyFrom field (nCh - 1) 1 (put 0 (field O) m).

(** The C string at the buffer *)
Definition cString (m : Mem) (t : str) : Prop :=
  (forall i, (i < length t)%nat -> m i = nth i t NUL /\ m i <> NUL) /\ m (length t) = NUL.

(** 1407-1418: the fields left to do, the buffer, the settings before and after. [gs] holds what the uninitialised local
    buffer of each call of meltssetsystemproperty_ contains. *)
Inductive Calls (tbl : list Solid) (nCh : nat) : list Mem -> list Mem -> Mem -> Settings -> Settings -> Prop :=
| Calls_end m s : Calls tbl nCh [] [] m s s
| Calls_next g gs field fields m s t s' :
    cString (copyField field nCh m) t ->
    Calls tbl nCh gs fields (copyField field nCh m) (setProperty g tbl t s) s' ->
    Calls tbl nCh (g :: gs) (field :: fields) m s s'.

(** strings[i*nCh+j] *)
Definition fieldOf (strings : Mem) (nCh i : nat) : Mem := fun j => strings (i * nCh + j)%nat.
Definition setProperties (tbl : list Solid) (nCh np : nat) (gs : list Mem) (strings m : Mem) (s s' : Settings) : Prop :=
  Calls tbl nCh gs (map (fieldOf strings nCh) (seq 0 np)) m s s'.
