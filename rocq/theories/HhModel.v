(** sources/lawson_hanson.c: the four Householder routines and hfti.

    Integers that index arrays are natural numbers here, and the ends of index
    ranges are exclusive: where the C passes m-1, n-1, nb-1 or i-1 the model
    passes m, n, nb or i. The four C functions differ only in whether the pivot
    vector and the transformed vectors are rows or columns, which is a
    parameter of the one definition below. Arithmetic is exact. *)
From Coq Require Import Reals ZArith Arith Bool.
From Verif Require Import LaSpec LaBase.
Local Open Scope R_scope.

Inductive side : Type := Col | Row.
(** entry i of the k-th column or row, reading and writing *)
Definition get (o : side) (a : mat) (k i : nat) : R := match o with Col => a i k | Row => a k i end.
Definition put (o : side) (a : mat) (k i : nat) (x : R) : mat :=
  fun r c => match o with
             | Col => if Nat.eqb r i && Nat.eqb c k then x else a r c
             | Row => if Nat.eqb r k && Nat.eqb c i then x else a r c
             end.
Inductive mode : Type := H1 | H2.   (* lawson_hanson.h: HOUSEHOLDER_CALC_MODE_H1, _H2 *)

(** lawson_hanson.c 318-322 (361-365, 404-408, 447-451): the H1 part. Returns v and *h. *)
Definition hBuild (o : side) (p l m : nat) (v : mat) (vk : nat) : mat * R :=
  let s0 := forUp l m (fun i s => s + get o v vk i * get o v vk i) (get o v vk p * get o v vk p) in
  let s1 := sqrt s0 in
  let s := if Rlt_dec 0 (get o v vk p) then s1 * -1 else s1 in
  (put o v vk p s, get o v vk p - s).
(** lawson_hanson.c 324-333 (367-376, 410-419, 453-462): applying the transformation to one vector of c *)
Definition hOne (ov oc : side) (p l m : nat) (v : mat) (vk : nat) (h b : R) (j : nat) (c : mat) : mat :=
  let s := forUp l m (fun i s => s + get oc c j i * get ov v vk i) (get oc c j p * h) / b in
  let c1 := put oc c j p (get oc c j p + s * h) in
  forUp l m (fun i c => put oc c j i (get oc c j i + s * get ov v vk i)) c1.
(** In the calls of this program where v and c are the same array the transformed vectors do not include the pivot
    vector (lawson_hanson.c 172, 190; est_saturation_state.c 266): v is read once, before the loop. *)
Definition hApply (ov oc : side) (p l m : nat) (v : mat) (vk : nat) (h : R) (c : mat) (cs ce : nat) : mat :=
  let b := get ov v vk p * h in
  if Req_EM_T b 0 then c else forUp cs ce (hOne ov oc p l m v vk h b) c.
(** householderColCol, householderColRow, householderRowCol, householderRowRow (lawson_hanson.c 297-463),
    v and c different arrays. Result: v, *h, c. *)
Definition householder (ov oc : side) (md : mode) (p l m : nat) (v : mat) (vk : nat) (h : R) (c : mat) (cs ce : nat) : mat * R * mat :=
  if (p <? l)%nat && (l <? m)%nat then
    match md with
    | H1 => let (v', h') := hBuild ov p l m v vk in (v', h', hApply ov oc p l m v' vk h' c cs ce)
    | H2 => (v, h, hApply ov oc p l m v vk h c cs ce)
    end
  else (v, h, c).
(** the same with v and c the same array (mode H1). Result: the array, *h. *)
Definition householderSelf (ov oc : side) (p l m : nat) (a : mat) (vk : nat) (h : R) (cs ce : nat) : mat * R :=
  if (p <? l)%nat && (l <? m)%nat then
    let (a', h') := hBuild ov p l m a vk in (hApply ov oc p l m a' vk h' a' cs ce, h')
  else (a, h).

(** ** hfti (lawson_hanson.c 139-208), for m >= n (with m < n the C reads a[i][i] beyond the last row, line 182) *)
Definition swapCols (m : nat) (a : mat) (j k : nat) : mat :=          (* lines 166-168, rows 0 <= i < m *)
  fun r c => if (r <? m)%nat then if Nat.eqb c j then a r k else if Nat.eqb c k then a r j else a r c else a r c.
Definition updv (h : vec) (i : nat) (x : R) : vec := fun k => if Nat.eqb k i then x else h k.
Definition updi (p : nat -> nat) (i x : nat) : nat -> nat := fun k => if Nat.eqb k i then x else p k.
(** for (l=j, lambda=j; l<n; l++) if (h[l] > h[lambda]) lambda = l;  (lines 156, 162) *)
Definition argmax (j n : nat) (h : vec) : nat :=
  forUp j n (fun l lam => if Rlt_dec (h lam) (h l) then l else lam) j.
Record hstate : Type := mkH { ha : mat; hb : mat; hh : vec; hp : nat -> nat; hBar : R; hlam : nat }.
(** one pass of the loop on j (lines 153-175) *)
Definition hStep (m n nb : nat) (j : nat) (s : hstate) : hstate :=
  let a := ha s in
  let '(h1, lam1) :=
    if (0 <? j)%nat then
      let h1 := forUp j n (fun l h => updv h l (h l - a (j - 1)%nat l * a (j - 1)%nat l)) (hh s) in (h1, argmax j n h1)
    else (hh s, hlam s) in
  let '(h2, lam, hbar) :=
    if (Nat.eqb j 0) || (if Rle_dec (hBar s + 1 / 1000 * h1 lam1) (hBar s) then true else false) then
      let h2 := forUp j n (fun l h => updv h l (forUp j m (fun i x => x + a i l * a i l) 0)) h1 in
      let lam := argmax j n h2 in (h2, lam, h2 lam)
    else (h1, lam1, hBar s) in
  let p := updi (hp s) j lam in
  let '(a1, h3) := if Nat.eqb lam j then (a, h2) else (swapCols m a j lam, updv h2 lam (h2 j)) in
  let '(a2, hj) := householderSelf Col Col j (j + 1) m a1 j (h3 j) (j + 1) n in
  let h4 := updv h3 j hj in
  let '(_, _, b1) := householder Col Col H2 j (j + 1) m a2 j (h4 j) (hb s) 0 nb in
  mkH a2 b1 h4 p hbar lam.
(** the pseudorank, lines 180-183 *)
Definition pseudorank (n : nat) (a : mat) (tau : R) : nat :=
  forUp 0 n (fun i k => if Rlt_dec tau (Rabs (a i i)) then S k else k) O.
(** lines 195-200: back substitution for one right-hand side *)
Definition backsub (k n : nat) (a b : mat) (l : nat) : mat :=
  let b0 := put Col b l (k - 1)%nat (b (k - 1)%nat l / a (k - 1)%nat (k - 1)%nat) in
  let b1 := forDown (k - 1)%nat (fun i b =>
    let b' := forUp (i + 1) k (fun j b => put Col b l i (b i l - a i j * b j l)) b in
    put Col b' l i (b' i l / a i i)) b0 in
  if (k <? n)%nat then forUp k n (fun i b => put Col b l i 0) b1 else b1.
(** lines 204-208: undoing the interchanges *)
Definition unpermute (n nb : nat) (p : nat -> nat) (b : mat) : mat :=
  forDown n (fun j b => if Nat.eqb (p j) j then b
    else fun r c => if (c <? nb)%nat then if Nat.eqb r j then b (p j) c else if Nat.eqb r (p j) then b j c else b r c else b r c) b.
Record hout : Type := mkOut { oa : mat; ob : mat; ok : nat; ornorm : vec; oh : vec; og : vec; op : nat -> nat }.
Definition hfti (a : mat) (m n : nat) (b : mat) (nb : nat) (tau : R) (rnorm h g : vec) (p : nat -> nat) : hout :=
  let s := forUp 0 n (hStep m n nb) (mkH a b h p 0 0) in        (* mu = MIN(m, n) = n *)
  let k := if Rlt_dec tau 0 then Z.to_nat (Int_part (Rabs tau)) else pseudorank n (ha s) tau in
  let rn := forUp 0 nb (fun l rn => updv rn l (sqrt (forUp k m (fun i x => x + hb s i l * hb s i l) 0))) rnorm in  (* 185-188 *)
  if Nat.eqb k 0 then                                            (* 190-191 *)
    mkOut (ha s) (forUp 0 n (fun i b => forUp 0 nb (fun j b => put Col b j i 0) b) (hb s)) k rn (hh s) g (hp s)
  else
    let '(a1, g1) := if (k <? n)%nat then                        (* 193-194 *)
        forDown k (fun i ag => let '(a', g') := householderSelf Row Row i k n (fst ag) i (snd ag i) 0 i in (a', updv (snd ag) i g')) (ha s, g)
      else (ha s, g) in
    let b1 := forUp 0 nb (fun l b => backsub k n a1 b l) (hb s) in
    let b2 := if (k <? n)%nat then
        forUp 0 k (fun i b => let '(_, _, b') := householder Row Col H2 i k n a1 i (g1 i) b 0 nb in b') b1 else b1 in   (* 201-202 *)
    mkOut a1 (unpermute n nb (hp s) b2) k rn (hh s) g1 (hp s).
