(** Model of names in the shared library: names handed out and phases looked up by name.

    Sources: sources/library.c meltsgetoxidenames_ 159-164, getMeltsOxideNames 180-204, meltsgetphasenames_ 257-274,
    getMeltsPhaseNames 282-308, comparePhases and initializePhaseList 328-357, the lookup (366-371, 1443-1447, 1721-1725,
    1938-1942, 2179-2183: the same lines). TESTDYNAMICLIB is defined (see DynModel.v).

    Simplifications: an array of characters is a function and a size, and a write at or past the size ends the call (Overrun:
    in C it is undefined behaviour); a C string is a Coq string (no character 0 inside). qsort and bsearch are any functions
    that do what the C standard says (sorts, finds). *)
From Coq Require Import String Ascii Bool Arith ZArith List Sorting.Permutation.
From Verif Require Import InitModel.
Import ListNotations.

Inductive answer (A : Type) : Type := Ok (x : A) | Overrun.
Arguments Ok {A} _. Arguments Overrun {A}.
Definition NUL : ascii := Ascii.zero.
Definition BLANK : ascii := " "%char.
Record Buf : Type := mkBuf { size : nat; at_ : nat -> ascii }.

(** strncpy(buf + start, s, n): n characters are always written *)
Definition strncpy (b : Buf) (start : nat) (s : string) (n : nat) : answer Buf :=
  if Nat.ltb (size b) (start + n) then Overrun
  else Ok (mkBuf (size b) (fun i => if Nat.leb start i && Nat.ltb i (start + n) then match get (i - start) s with Some c => c | None => NUL end else at_ b i)).
(** one name after the other: 161-163, 261-272 *)
Fixpoint copyNames (b : Buf) (k nCh : nat) (names : list string) : answer Buf :=
  match names with
  | [] => Ok b
  | s :: rest => match strncpy b (k * nCh) s nCh with Overrun => Overrun | Ok b' => copyNames b' (S k) nCh rest end
  end.
(** 190-198, 294-302: blanks instead of the zeros strncpy writes, for as many names as there are *)
Fixpoint copyOut (n : nat) (from : Buf) (to : Buf) : answer Buf :=
  match n with
  | O => Ok to
  | S m => match copyOut m from to with Overrun => Overrun | Ok to' =>
      if Nat.leb (size to') m || Nat.leb (size from) m then Overrun
      else Ok (mkBuf (size to') (fun i => if Nat.eqb i m then (if Ascii.eqb (at_ from m) NUL then BLANK else at_ from m) else at_ to' i)) end
  end.
(** getMeltsOxideNames, getMeltsPhaseNames: number is the count of names the caller has room for; memory is what malloc returns *)
Definition getNames (names : list string) (nCh number : nat) (memory : nat -> ascii) (caller : Buf) : answer (Buf * nat) :=
  if Nat.ltb (size caller) (nCh * number) then Overrun
  else match copyNames (mkBuf (nCh * number) memory) 0 nCh names with
       | Overrun => Overrun
       | Ok b => match copyOut (nCh * length names) b (mkBuf (size caller) (fun i => if Nat.ltb i (nCh * number) then NUL else at_ caller i)) with
                 | Overrun => Overrun | Ok out => Ok (out, length names) end
       end.

(** ** Tables *)
Definition rowLabel (m : Mode) (i : nat) : string := fst (fst (nth i (mSol m) (""%string, false, ""%string))).
Definition rowPhase (m : Mode) (i : nat) : bool := snd (fst (nth i (mSol m) (""%string, false, ""%string))).
Definition phaseRows (m : Mode) : list nat := filter (rowPhase m) (seq 0 (length (mSol m))).
(** 261-273; with TESTDYNAMICLIB the first is "bulk" *)
Definition phaseNames (m : Mode) : list string := ("bulk"%string :: "liquid"%string :: map (rowLabel m) (phaseRows m)).
Definition phaseIndices (m : Mode) : list Z := ((-10)%Z :: 0%Z :: map (fun i => (10 * Z.of_nat i + 10)%Z) (phaseRows m)).

(** ** Lookup *)
Definition Item : Type := (Z * string)%type.
(** 341-353 *)
Definition items (m : Mode) : list Item := ((-1)%Z, "liquid"%string) :: map (fun i => (Z.of_nat i, rowLabel m i)) (phaseRows m).
(** 340, 349: the longest label and its terminator, at least seven *)
Definition maxLength (m : Mode) : nat := fold_right Nat.max 7%nat (map (fun e => String.length (snd e) + 1)%nat (items m)).
(** 328-332 *)
Definition strcmp (a b : string) : comparison := String.compare a b.
Definition comparePhases (a b : Item) : comparison := strcmp (snd a) (snd b).
Section Lookup.
Variable qsort : (Item -> Item -> comparison) -> list Item -> list Item.
Variable bsearch : Item -> list Item -> (Item -> Item -> comparison) -> option Item.
(** the place in the solids table, -1 for the liquid; the index key holds is never looked at *)
Definition lookup (m : Mode) (name : string) : answer (option Z) :=
  if Nat.ltb (maxLength m) (String.length name + 1) then Overrun
  else Ok (option_map fst (bsearch (0%Z, name) (qsort comparePhases (items m)) comparePhases)).
End Lookup.
