(** Model of the table of calculation nodes in sources/library.c.

    Lines 439-450 (the table, compareNodes), 453-466 (createSilminState) and
    the lookup that opens meltsprocess_ (666-693), meltssetsystemproperty_
    (1299-1319) and meltssaturationstate_ (2306-2333): the same code three
    times, up to the flag [update] which the first and last also compute.

    Simplifications (all of them):
    - a SilminState is a value of an arbitrary type [C], held in a numbered
      memory cell; createSilminState takes the next unused cell and fills it
      with [fresh]; cells are never freed (library.c never frees a node);
    - realloc never fails;
    - what a call does with the state after the lookup is an arbitrary function
      [C -> C] on that state;
    - int subtraction that overflows wraps around (undefined in C; gcc and
      clang produce the wrapped difference here). *)
From Coq Require Import ZArith List Lia.
Import ListNotations.
Open Scope Z_scope.

(** the value of a 32-bit signed int after wrap-around *)
Definition wrap32 (x : Z) : Z := (x + 2 ^ 31) mod 2 ^ 32 - 2 ^ 31.

(** library.c 446-450: compareNodes *)
Definition compareNodes (a b : Z) : Z := wrap32 (a - b).

(** struct _nodeList (439-442): the index and the pointer. *)
Notation Entry := (Z * nat)%type.

(** bsearch as in the C library: halve [l, u) until the key is met.
    [fuel] bounds the number of halvings; the callers pass u - l. *)
Fixpoint bsearchIn (fuel : nat) (key : Z) (tab : list Entry) (l u : nat) : option nat :=
  match fuel with
  | O => None
  | S fuel' =>
    if Nat.ltb l u then
      let idx := Nat.div2 (l + u) in
      match nth_error tab idx with
      | None => None
      | Some e =>
        let c := compareNodes key (fst e) in
        if c <? 0 then bsearchIn fuel' key tab l idx
        else if 0 <? c then bsearchIn fuel' key tab (S idx) u
        else Some idx
      end
    else None
  end.
Definition bsearch (key : Z) (tab : list Entry) : option nat :=
  bsearchIn (length tab) key tab 0 (length tab).

Section Nodes.
Variable C : Type.
Variable fresh : C.
(** the C library's qsort with compareNodes; any algorithm *)
Variable qsort : list Entry -> list Entry.

Record Mem : Type := mkMem {
  nodes : list Entry;      (* nodeList[0 .. numberNodes-1] *)
  cell : nat -> C;         (* what each pointer points to *)
  next : nat               (* first cell not handed out yet *)
}.
Definition empty : Mem := mkMem [] (fun _ => fresh) 0.

(** createSilminState (453-466) *)
Definition create (m : Mem) : Mem * nat :=
  (mkMem (nodes m) (fun q => if Nat.eqb q (next m) then fresh else cell m q) (S (next m)), next m).

(** 666-693: the pointer assigned to the global silminState. *)
Definition select (idx : Z) (m : Mem) : Mem * nat :=
  if negb (Nat.eqb (length (nodes m)) 0) then
    match bsearch idx (nodes m) with
    | None =>
        let (m1, p) := create m in
        (mkMem (qsort (nodes m1 ++ [(idx, p)])) (cell m1) (next m1), p)
    | Some k => (m, snd (nth k (nodes m) (0, O)))
    end
  else
    let (m1, p) := create m in
    (mkMem [(idx, p)] (cell m1) (next m1), p).

(** One call of the library on node [idx] that turns the node's state x into
    [f x]. Returns the state the call found. *)
Definition call (idx : Z) (f : C -> C) (m : Mem) : Mem * C :=
  let (m1, p) := select idx m in
  (mkMem (nodes m1) (fun q => if Nat.eqb q p then f (cell m1 q) else cell m1 q) (next m1), cell m1 p).

(** A history of calls, in order. *)
Definition history (h : list (Z * (C -> C))) (m : Mem) : Mem :=
  fold_left (fun m c => fst (call (fst c) (snd c) m)) h m.
End Nodes.
