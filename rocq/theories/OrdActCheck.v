(** Checks on the tables of the activity functions: each row of fr is the
    composition of an end member minus the composition of the phase, the end
    members have the composition that the conversion function gives them, and
    ENDMEMBERS combines the end members in proportion. *)
From Coq Require Import QArith NArith Arith List Bool.
From Verif Require Import Sym SymNorm SolnModel ConData ConProofs OrdModel OrdData OrdActModel OrdActData.
Import List ListNotations.

(** value with every variable zero *)
Fixpoint atZero (x : expr) : Q :=
  match x with
  | Num q => q | Var _ => 0 | Sym.Add a b => (atZero a + atZero b)%Q | Sub a b => (atZero a - atZero b)%Q | Mul a b => (atZero a * atZero b)%Q
  | Neg a => (- atZero a)%Q | _ => 0
  end.
(** r[j] of end member i *)
Definition comp (A : ordAct) (i j : nat) : Q := Qred (atZero (nth2 (oa_fr A) i j)).
Definition below (n : nat) (f : nat -> bool) : bool := forallb f (seq 0 n).
Definition checkAct (A : ordAct) : bool :=
  let ph := oa_ph A in let c := oa_con A in
  Nat.eqb (cv_na c) (o_na ph) && Nat.eqb (cv_nr c) (o_nr ph)
  && below (o_na ph) (fun i => below (o_nr ph) (fun j =>
       sameCheck (o_sites ph) [0%N] [] (nth2 (oa_fr A) i j) (Sub (Num (comp A i j)) (Var (N.of_nat (2 + j))))
       && sameCheck (o_sites ph) [0%N] [] (nth2 (oa_dfr A) i j) (Num (-1))))
  && conCheck c && below (o_nr ph) (fun j => below (o_na ph) (fun i => Qeq_bool (comp A i j) (coef c j i)))
  && match o_ends ph with
     | None => true
     | Some (x, l) => below (o_na ph) (fun i =>
         sameCheck [] [] [] (Sym.Add x (sumE (o_nr ph) (fun j => Mul (Sub (Num (comp A i j)) (Var (N.of_nat (2 + j)))) (nth1 l j)))) (Var (N.of_nat (60 + i))))
     end.
Lemma actsOK : forallb checkAct ordActs = true. Proof. vm_compute. reflexivity. Qed.
