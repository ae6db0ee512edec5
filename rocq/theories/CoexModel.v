(** Model of checkForCoexistingLiquids: sources/check_coexisting_liquids.c 121-398, with the liquid of liquid_v34.c.

    Simplifications: doubles are real numbers; a loop that accumulates a sum is written [sum]; the arrays allocated on the
    first call (135-156), the test of the Hessian (169-185, its result is not used), liquidDelta of the new liquid and the
    debugging output are left out. fmingr (383-398) reads the composition that the last call of fminfn left in tVec; vmmin
    calls it only after a call of fminfn at the same point (nash.c 220-230, 253-260), so it is a function of that point. *)
From Coq Require Import Reals List Bool Arith.
From Verif Require Import MassModel LiqModel LaSpec LaBase HhModel QuadModel NashModel.
Import ListNotations.
Open Scope R_scope.

Section Coex.
(** n stands for nr, S n for na *)
Variable n : nat.
Variables WH WS WV : nat -> nat -> R.
Notation NA := (S n).
Variables t p : R.
(** None: fo2Path is FO2_NONE. Some f: 348-351, the composition f m has the ferric iron that the path asks for; the redox
    correction itself is RedoxModel.toRedox *)
Variable redox : option ((nat -> R) -> nat -> R).
(** contents of hVec before the call *)
Variable h0 : nat -> R.
Notation gmix := (gmix n WH WS WV t p).
Notation dgmix := (dgmix n WH WS WV t p).

(** testLiq_v34 331-343, cases FIFTH and SIXTH, as tests *)
Definition leb (x y : R) : bool := if Rle_dec x y then true else false.
Definition feasibleR (r : nat -> R) : bool := forallb (fun i => leb 0 (r i) && leb (r i) 1) (seq 0 n) && leb (MassModel.sum n r) 1.
Definition feasibleM (m : nat -> R) : bool := forallb (fun i => leb 0 (m i)) (seq 0 NA).

(** 188-189: the components that are absent *)
Definition nulls (m : nat -> R) : list nat := filter (fun i => isZ (m i)) (seq 0 NA).
Definition present (m : nat -> R) : list nat := filter (fun i => negb (isZ (m i))) (seq 0 NA).
Definition ne (m : nat -> R) : nat := length (nulls m).
(** 190: nz, the number of free variables *)
Definition nz (m : nat -> R) : nat := (n - ne m)%nat.
(** 196-197: the derivatives of the mole fractions *)
Definition dxdr (i j : nat) : R := if Nat.eqb i 0 then -1 else if Nat.eqb i (S j) then 1 else 0.
(** 200: the rows of the absent components, moved to the front. The rows behind them are not used. *)
Definition nullRows (m : nat -> R) : mat := fun k j => dxdr (nth k (nulls m) k) j.
(** 201 *)
Definition frame (m : nat -> R) : mat * vec := conDecomp (ne m) n (nullRows m) h0.
(** 211 and 395: to the free variables; 226 and 339: back *)
Definition toFree (m : nat -> R) (x : nat -> R) : nat -> R :=
  projUp Row (ne m) n (fst (frame m)) (snd (frame m)) (fun _ => x) 0 1 0%nat.
Definition fromFree (m : nat -> R) (x : nat -> R) : nat -> R :=
  projDown Row (ne m) n (fst (frame m)) (snd (frame m)) (fun _ => x) 0 1 0%nat.
(** 212, 227, 340 *)
Definition snap (x : nat -> R) (i : nat) : R := if Rlt_dec (Rabs (x i)) (10 * dblEps) then 0 else x i.
(** 336-341 and, after the search, 224-228: the composition from the free variables b and the fixed ones y *)
Definition lift (m y b : nat -> R) : nat -> R :=
  let v := fun i => if (i <? ne m)%nat then y i else b (i - ne m)%nat in
  if (ne m =? 0)%nat then v else snap (fromFree m v).
(** 373-376 *)
Definition gap (ref x : nat -> R) : R := gmix x - gmix ref - MassModel.sum n (fun i => dgmix ref i * (x i - ref i)).
(** 343-371: the composition whose energy is taken, None if it is infeasible *)
Definition evaluated (tv : nat -> R) : option (nat -> R) :=
  match redox with
  | Some f => let mc := f (xr n tv) in if feasibleM mc then Some (rOf n mc) else None
  | None => if feasibleR tv then Some tv else None
  end.
Definition fminfn (m y b : nat -> R) : option R :=
  match evaluated (lift m y b) with Some x => Some (gap (rOf n m) x) | None => None end.
Definition fmingr (m y b : nat -> R) (k : nat) : R :=
  match evaluated (lift m y b) with
  | Some x => toFree m (fun i => dgmix x i - dgmix (rOf n m) i) (k + ne m)%nat
  | None => 0
  end.

(** 206-208: the start of the search in the direction of component i *)
Definition startOf (m : nat -> R) (i j : nat) : R := if isZ (m j) then 0 else if Nat.eqb j i then 1 * (10 * INR (NA - ne m)) else 1.
Definition startFree (m : nat -> R) (i : nat) : nat -> R :=
  if (ne m =? 0)%nat then rOf n (startOf m i) else toFree m (rOf n (startOf m i)).
Definition fixed (m : nat -> R) (i : nat) : nat -> R := snap (startFree m i).
(** 160: reltest *)
Definition reltest : R := sqrt dblEps.
(** 204-235: one search, and what it contributes *)
Definition trial (m : nat -> R) (i : nat) (c : option (nat -> R)) : Prop :=
  exists F0 r,
    vmmin (nz m) (fminfn m (fixed m i)) (fmingr m (fixed m i)) reltest (fun k => startFree m i (k + ne m)%nat) F0 r /\
    c = (match codev r with
         | SUCCESS => if Rlt_dec (oF r) (- reltest * Rabs (gmix (rOf n m))) then Some (lift m (fixed m i) (oB r)) else None
         | _ => None
         end).
Definition somes {A : Type} (l : list (option A)) : list A := flat_map (fun o => match o with Some x => [x] | None => [] end) l.
(** 204: the loop on the components present *)
Definition searches (m : nat -> R) (cs : list (nat -> R)) : Prop := exists l, Forall2 (trial m) (present m) l /\ cs = somes l.
(** 231-232, 291-293: the composition most distant from the one tested *)
Definition dist2 (ref x : nat -> R) : R := MassModel.sum n (fun i => (x i - ref i) * (x i - ref i)).
Definition farthest (ref x0 : nat -> R) (l : list (nat -> R)) : nat -> R :=
  fold_left (fun best x => if Rlt_dec (dist2 ref best) (dist2 ref x) then x else best) l x0.
(** 163-313: the loop on the liquids, up to the first one with a candidate (line 283 ends the loop) *)
Inductive scan : list (nat -> R) -> option (nat -> R) -> Prop :=
| scan_end : scan [] None
| scan_next m ms o : searches m [] -> scan ms o -> scan (m :: ms) o
| scan_found m ms x cs : searches m (x :: cs) -> scan (m :: ms) (Some (farthest (rOf n m) x cs)).
(** includes/silmin.h: MASSIN *)
Definition MASSIN : R := / 100000.
(** 295-306: the new liquid, and its amount taken from the first liquid *)
Definition divide (x : nat -> R) (liquids : list (nat -> R)) : list (nat -> R) :=
  let new := fun i => xr n x i * MASSIN in
  match liquids with
  | [] => [new]
  | m :: ms => (fun i => m i - new i) :: ms ++ [new]
  end.
(** 121-320: the liquids after the call and the value returned *)
Definition check (liquidMass : R) (liquids liquids' : list (nat -> R)) (found : bool) : Prop :=
  if Req_EM_T liquidMass 0 then liquids' = liquids /\ found = false
  else if Rle_dec t 0 then liquids' = liquids /\ found = false
  else if Rlt_dec p 0 then liquids' = liquids /\ found = false
  else exists o, scan liquids o /\
    match o with
    | None => liquids' = liquids /\ found = false
    | Some x => liquids' = divide x liquids /\ found = true
    end.
End Coex.
