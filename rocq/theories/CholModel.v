(** sources/nash.c 412-468: Cholesky decomposition and back-substitution in
    compact storage. The array is a function from the index to the entry, the
    loop bounds and index expressions are those of the C. Arithmetic is exact. *)
From Coq Require Import Reals Arith Bool.
From Verif Require Import LaSpec LaBase HhModel.
Local Open Scope R_scope.

(** nash.c 421-427: columns before j are used to update column j *)
Definition cholUpdate (n j : nat) (a : vec) : vec :=
  let q := (j * (j + 1) / 2)%nat in
  forUp j (n + 1) (fun i a =>
    let m := (i * (i - 1) / 2 + j)%nat in
    updv a (m - 1) (forUp 1 j (fun k s => s - a (m - k - 1)%nat * a (q - k - 1)%nat) (a (m - 1)%nat))) a.
(** nash.c 432-436: column j is divided by the root of the pivot *)
Definition cholScale (n j : nat) (a : vec) : vec :=
  let q := (j * (j + 1) / 2)%nat in
  let s := sqrt (a (q - 1)%nat) in
  forUp j (n + 1) (fun i a =>
    let m := (i * (i - 1) / 2 + j)%nat in
    updv a (m - 1) (if Req_EM_T s 0 then 0 else a (m - 1)%nat / s)) a.
(** nash.c 418-436: one pass of the loop over j *)
Definition cholStep (n j : nat) (st : vec * bool) : vec * bool :=
  let q := (j * (j + 1) / 2)%nat in
  let a1 := if (1 <? j)%nat then cholUpdate n j (fst st) else fst st in
  let '(a2, singmat) := if Rle_dec (a1 (q - 1)%nat) 0 then (updv a1 (q - 1) 0, true) else (a1, snd st) in
  (cholScale n j a2, singmat).
(** nash.c 412-437: Choldcmp, result a and *singmat *)
Definition Choldcmp (n : nat) (a : vec) : vec * bool := forUp 1 (n + 1) (cholStep n) (a, false).

(** nash.c 448, 454, 459, 464: the guarded division *)
Definition sdiv (x d : R) : R := if Req_EM_T d 0 then 0 else x / d.
(** nash.c 448-457: forward substitution; the running q is carried along *)
Definition cholFwd (n : nat) (a x : vec) : vec :=
  let x1 := updv x 0 (sdiv (x 0%nat) (a 0%nat)) in
  if (1 <? n)%nat then
    fst (forUp 2 (n + 1) (fun i st =>
      let '(x, q) := forUp 1 i (fun j st => let '(x, q) := st in (updv x (i - 1) (x (i - 1)%nat - a (q + 1 - 1)%nat * x (j - 1)%nat), (q + 1)%nat)) st in
      let q' := (q + 1)%nat in (updv x (i - 1) (sdiv (x (i - 1)%nat) (a (q' - 1)%nat)), q')) (x1, 1%nat))
  else x1.
(** nash.c 459-466: backward substitution; i runs from n down to 2, here i = k + 2 *)
Definition cholBwd (n : nat) (a x : vec) : vec :=
  let x1 := updv x (n - 1) (sdiv (x (n - 1)%nat) (a (n * (n + 1) / 2 - 1)%nat)) in
  if (1 <? n)%nat then
    forDown (n - 1) (fun k x =>
      let i := (k + 2)%nat in
      let q := (i * (i - 1) / 2)%nat in
      let x' := forUp 1 i (fun j x => updv x (j - 1) (x (j - 1)%nat - x (i - 1)%nat * a (q + j - 1)%nat)) x in
      updv x' (i - 2) (sdiv (x' (i - 2)%nat) (a (q - 1)%nat))) x1
  else x1.
(** nash.c 444-468: Cholback *)
Definition Cholback (n : nat) (a x : vec) : vec := cholBwd n a (cholFwd n a x).
