(** sources/frac.c: rational approximation of a positive number.

    Integers are unbounded here (the C uses int, and converts v up to 4e10 and
    the quotient r to int), arithmetic is exact. *)
From Coq Require Import Reals ZArith.
Local Open Scope R_scope.

(** the conversion (int)x *)
Definition trunc (x : R) : Z := if Rle_dec 0 x then Int_part x else (- Int_part (- x))%Z.
Record frst : Type := { fn : Z; fd : Z; fN : Z; fD : Z }.
(** frac.c 59-70, label three: r, and the exchange of the two fractions *)
Definition three (v : R) (s : frst) : frst * R :=
  if Req_EM_T (v * IZR (fd s)) (IZR (fn s)) then (s, 0)
  else let r := (IZR (fN s) - v * IZR (fD s)) / (v * IZR (fd s) - IZR (fn s)) in
       if Rlt_dec 1 r then (s, r) else ({| fn := fN s; fd := fD s; fN := fn s; fD := fd s |}, r).
(** frac.c 52-58, labels one and two *)
Definition two (s : frst) (r0 : R) : frst :=
  let r := if Rlt_dec 1 r0 then r0 else 1 / r0 in
  let N := (fN s + fn s * trunc r)%Z in
  let D := (fD s + fd s * trunc r)%Z in
  {| fn := (fn s + N)%Z; fd := (fd s + D)%Z; fN := N; fD := D |}.
(** frac.c 71 *)
Definition epsilonOf (v : R) (s : frst) : R := Rabs (1 - IZR (fn s) / (v * IZR (fd s))).
(** frac.c 74-78: m is the first of 10, 100, ... with m epsilon >= 1 *)
Definition rounded (e e' : R) : Prop :=
  exists k, (1 <= k)%nat /\ 1 <= 10 ^ k * e /\ (forall j, (1 <= j < k)%nat -> 10 ^ j * e < 1) /\ e' = 1 / 10 ^ k * IZR (trunc (1/2 + 10 ^ k * e)).
(** frac.c 72-78: the value tested at label six *)
Definition tested (e error e' : R) : Prop := (e <= error /\ e' = e) \/ (error < e /\ rounded e e').
(** frac.c 59-83. The result is the returned value and the two integers. *)
Inductive fracLoop (v error : R) : frst -> R * Z * Z -> Prop :=
| frac_done s s' r e' : three v s = (s', r) -> tested (epsilonOf v s') error e' -> e' <= error -> fracLoop v error s (e', fn s', fd s')
| frac_fail s s' r e' : three v s = (s', r) -> tested (epsilonOf v s') error e' -> error < e' -> r = 0 -> fracLoop v error s (-1, fn s', fd s')
| frac_next s s' r e' res : three v s = (s', r) -> tested (epsilonOf v s') error e' -> error < e' -> r <> 0 -> fracLoop v error (two s' r) res -> fracLoop v error s res.
(** frac.c 45-50; n0 and d0 are the contents of *n and *d before the call *)
Definition frac (v error : R) (n0 d0 : Z) (res : R * Z * Z) : Prop :=
  if Rlt_dec v (3 / 10000000000) then res = (-1, n0, d0)
  else if Rlt_dec 40000000000 v then res = (-1, n0, d0)
  else if Rlt_dec error 0 then res = (-1, n0, d0)
  else fracLoop v error {| fn := trunc v; fd := 1; fN := (trunc v + 1)%Z; fD := 1 |} res.
