(** Specification of names (C194, C195). *)
From Coq Require Import String Ascii Bool Arith ZArith List Sorting.Permutation Sorting.Sorted.
From Verif Require Import NameModel.
Import ListNotations.

(** the characters of field k of an array of fields of n characters *)
Definition field (b : Buf) (n k : nat) : list ascii := map (fun i => at_ b (k * n + i)) (seq 0 n).
(** a name in a field: its first n characters, blanks after it *)
Definition padded (s : string) (n : nat) : list ascii := firstn n (list_ascii_of_string s ++ repeat BLANK n).
(** what is left without the blanks at the end *)
Fixpoint trimmed (l : list ascii) : list ascii :=
  match l with [] => [] | c :: r => match trimmed r with [] => if Ascii.eqb c BLANK then [] else [c] | t => c :: t end end.

(** C 7.22.5.2, 7.22.5.1 *)
Definition sorts (qsort : (Item -> Item -> comparison) -> list Item -> list Item) : Prop :=
  forall l, Permutation l (qsort comparePhases l) /\ Sorted (fun a b => comparePhases a b <> Gt) (qsort comparePhases l).
Definition finds (bsearch : Item -> list Item -> (Item -> Item -> comparison) -> option Item) : Prop :=
  forall key l, Sorted (fun a b => comparePhases a b <> Gt) l ->
    match bsearch key l comparePhases with Some e => In e l /\ comparePhases key e = Eq | None => forall e, In e l -> comparePhases key e <> Eq end.
