(** sources/nash.c 123-400: the three minimisers min1d, vmmin and modmrt.

    The callbacks are functions of the point alone that return None where the C
    callback sets notcomp. Each routine is a step function from a state to the
    next state or to a result; [runs] iterates it, without a bound. Arithmetic
    is exact. Memory allocation is not modelled. *)
From Coq Require Import Reals ZArith Arith Bool.
From Verif Require Import LaSpec LaBase HhModel CholModel.
Local Open Scope R_scope.

Inductive runs {S T : Type} (step : S -> S + T) : S -> T -> Prop :=
| runs_done s t : step s = inr t -> runs step s t
| runs_next s s' t : step s = inl s' -> runs step s' t -> runs step s t.

(** nash.h 70-84 *)
Inductive status : Type := SUCCESS | BAD_INITIAL | ITERS_EXCEEDED.
(** float.h: DBL_EPSILON = 2^-52, and BIG = sqrt(DBL_MAX), with DBL_MAX = (2 - 2^-52) 2^1023 (nash.c 134) *)
Definition dblEps : R := / 2 ^ 52.
Definition BIG : R := sqrt ((2 - dblEps) * 2 ^ 1023).

(** ** min1d (nash.c 123-196) *)
Inductive pc1 : Type := Top | Grow | Back | Interp.   (* lines 140, 148, 164, 176 *)
Record st1 : Type := { bb : R; st : R; x0 : R; x1 : R; x2 : R; s0 : R; s1 : R; s2 : R; ifn : nat; at1 : R (* the last point passed to fn1d *) }.
(** the values left in the caller's variables; fnminval is None where the C leaves it unset *)
Record out1 : Type := { code1 : status; obb : R; ost : R; oifn : nat; fnminval : option R; lastPoint : R }.
(** nash.c 144, 151, 166, 183: a point where the function is not computable counts as BIG *)
Definition ev (f : R -> option R) (x : R) : R := match f x with Some y => y | None => BIG end.
Definition exceeded (s : st1) : out1 :=
  {| code1 := ITERS_EXCEEDED; obb := bb s; ost := st s; oifn := ifn s; fnminval := None; lastPoint := at1 s |}.
Definition min1dStep (f : R -> option R) (reltest : R) (ifnMax : nat) (ps : pc1 * st1) : (pc1 * st1) + out1 :=
  let '(pc, s) := ps in
  match pc with
  | Top =>                                                            (* lines 141-147, 161-163 *)
      let x0' := x1 s in
      let x1' := x0' + st s in
      let s1' := ev f x1' in
      let n := S (ifn s) in
      let s' := {| bb := x0'; st := st s; x0 := x0'; x1 := x1'; x2 := x2 s; s0 := s0 s; s1 := s1'; s2 := s2 s; ifn := n; at1 := x1' |} in
      if (ifnMax <? n)%nat then inr (exceeded s')
      else if Rlt_dec s1' (s0 s) then inl (Grow, s')
      else inl (Back, {| bb := x0'; st := st s * (-1/4); x0 := x1'; x1 := x0'; x2 := x2 s; s0 := s1'; s1 := s0 s; s2 := s2 s; ifn := n; at1 := x1' |})
  | Grow =>                                                           (* lines 149-158 *)
      let st' := st s * (3/2) in
      let x2' := x1 s + st' in
      let s2' := ev f x2' in
      let n := S (ifn s) in
      let s' := {| bb := bb s; st := st'; x0 := x0 s; x1 := x1 s; x2 := x2'; s0 := s0 s; s1 := s1 s; s2 := s2'; ifn := n; at1 := x2' |} in
      if (ifnMax <? n)%nat then inr (exceeded s')
      else if Rlt_dec s2' (s1 s)
      then inl (Grow, {| bb := bb s; st := st'; x0 := x1 s; x1 := x2'; x2 := x2'; s0 := s1 s; s1 := s2'; s2 := s2'; ifn := n; at1 := x2' |})
      else inl (Interp, s')
  | Back =>                                                           (* lines 165-173 *)
      let x2' := x1 s + st s in
      let s2' := ev f x2' in
      let n := S (ifn s) in
      let s' := {| bb := bb s; st := st s; x0 := x0 s; x1 := x1 s; x2 := x2'; s0 := s0 s; s1 := s1 s; s2 := s2'; ifn := n; at1 := x2' |} in
      if (ifnMax <? n)%nat then inr (exceeded s')
      else if Rlt_dec s2' (s1 s)
      then inl (Back, {| bb := bb s; st := st s * (3/2); x0 := x1 s; x1 := x2'; x2 := x2'; s0 := s1 s; s1 := s2'; s2 := s2'; ifn := n; at1 := x2' |})
      else inl (Interp, s')
  | Interp =>                                                         (* lines 176-195 *)
      let finish (s : st1) :=
        if Rlt_dec reltest (Rabs (bb s - x1 s))
        then inl (Top, {| bb := bb s; st := st s; x0 := x0 s; x1 := x1 s; x2 := x2 s; s0 := s1 s; s1 := s1 s; s2 := s2 s; ifn := ifn s; at1 := at1 s |})
        else inr {| code1 := SUCCESS; obb := bb s; ost := st s; oifn := ifn s; fnminval := Some (s1 s); lastPoint := bb s |} in
      let tt0 := x0 s - x1 s in
      let tt1 := (s0 s - s1 s) * st s in
      let tt2 := (s2 s - s1 s) * tt0 in
      if Req_EM_T tt1 tt2 then finish s else
      let st' := 1/2 * ((tt2 / (tt2 - tt1)) * tt0 - (tt1 / (tt2 - tt1)) * st s) in
      let xii := x1 s + st' in
      let s' := {| bb := bb s; st := st'; x0 := x0 s; x1 := x1 s; x2 := x2 s; s0 := s0 s; s1 := s1 s; s2 := s2 s; ifn := ifn s; at1 := at1 s |} in
      if Rlt_dec reltest (Rabs (xii - x1 s)) then
        let fii := ev f xii in
        let n := S (ifn s) in
        let s'' := {| bb := bb s; st := st'; x0 := x0 s; x1 := x1 s; x2 := x2 s; s0 := s0 s; s1 := s1 s; s2 := s2 s; ifn := n; at1 := xii |} in
        if (ifnMax <? n)%nat then inr (exceeded s'')
        else if Rlt_dec fii (s1 s)
        then finish {| bb := bb s; st := st'; x0 := x0 s; x1 := xii; x2 := x2 s; s0 := s0 s; s1 := fii; s2 := s2 s; ifn := n; at1 := xii |}
        else finish s''
      else finish s'
  end.
(** nash.c 136-138, then the loop *)
Definition min1d (f : R -> option R) (bb0 st0 reltest : R) (ifnMax : nat) (r : out1) : Prop :=
  match f bb0 with
  | None => r = {| code1 := BAD_INITIAL; obb := bb0; ost := st0; oifn := 0; fnminval := None; lastPoint := bb0 |}
  | Some y => runs (min1dStep f reltest ifnMax)
                (Top, {| bb := bb0; st := st0; x0 := bb0; x1 := bb0; x2 := bb0; s0 := y; s1 := y; s2 := y; ifn := 1; at1 := bb0 |}) r
  end.

(** ** vmmin (nash.c 209-280) *)
Inductive pcv : Type := Outer | Search.              (* lines 233 and 247 *)
Record stv : Type := { Bv : vec; Fmin : R; Bm : mat; cv : vec; gv : vec; tv : vec; Xv : vec; gradproj : R; steplength : R;
                       gradcount : nat; ilast : nat; iters : nat }.
Record outv : Type := { codev : status; oB : vec; oF : R }.
Definition ident : mat := fun i j => if Nat.eqb i j then 1 else 0.
(** the first n entries of v, the rest of old *)
Definition upto (n : nat) (v old : vec) : vec := fun i => if (i <? n)%nat then v i else old i.
(** line 242: s = - sum_j B[i][j] g[j] *)
Definition direction (n : nat) (B : mat) (g : vec) (i : nat) : R := forUp 0 n (fun j s => s - B i j * g j) 0.
(** lines 248-251: the number of coordinates that move by less than reltest *)
Definition still (n : nat) (X B : vec) (reltest : R) : nat :=
  forUp 0 n (fun i c => if Rlt_dec (Rabs (X i - B i)) reltest then S c else c) O.
(** lines 264-270 *)
Definition metric (n : nat) (B : mat) (t c : vec) (D1 : R) : mat :=
  let X := fun i => forUp 0 n (fun j s => s + B i j * c j) 0 in
  let D2 := 1 + forUp 0 n (fun i d => d + X i * c i) 0 / D1 in
  fun i j => if (i <? n)%nat && (j <? n)%nat then B i j - (t i * X j + X i * t j - D2 * t i * t j) / D1 else B i j.
Definition vmminStep (n : nat) (fminfn : vec -> option R) (fmingr : vec -> vec) (reltest : R) (ps : pcv * stv) : (pcv * stv) + outv :=
  let '(pc, s) := ps in
  match pc with
  | Outer =>
      let it := S (iters s) in
      if (10000 <? Z.of_nat it)%Z then inr {| codev := BAD_INITIAL; oB := Bv s; oF := Fmin s |}         (* lines 234-237 *)
      else
        let B := if Nat.eqb (ilast s) (gradcount s) then ident else Bm s in                       (* lines 238-239 *)
        let t := direction n B (gv s) in
        let gp := forUp 0 n (fun i d => d + t i * gv s i) 0 in                                    (* lines 240-244 *)
        if Rlt_dec gp 0 then
          inl (Search, {| Bv := Bv s; Fmin := Fmin s; Bm := B; cv := gv s; gv := gv s; tv := t; Xv := Bv s; gradproj := gp; steplength := 1;
                          gradcount := gradcount s; ilast := ilast s; iters := it |})
        else if Nat.eqb 0 n then inr {| codev := SUCCESS; oB := Bv s; oF := Fmin s |}             (* lines 275-276: count = 0, ilast = gradcount *)
        else inl (Outer, {| Bv := Bv s; Fmin := Fmin s; Bm := B; cv := gv s; gv := gv s; tv := t; Xv := Bv s; gradproj := gp; steplength := steplength s;
                            gradcount := gradcount s; ilast := gradcount s; iters := it |})
  | Search =>
      let Bn := upto n (fun i => Xv s i + steplength s * tv s i) (Bv s) in
      let count := still n (Xv s) Bn reltest in
      if (count <? n)%nat then
        let accept := match fminfn Bn with Some f => if Rle_dec f (Fmin s + gradproj s * steplength s * (1/10000)) then Some f else None | None => None end in
        match accept with
        | None => inl (Search, {| Bv := Bn; Fmin := Fmin s; Bm := Bm s; cv := cv s; gv := gv s; tv := tv s; Xv := Xv s; gradproj := gradproj s;
                                  steplength := steplength s * (1/5); gradcount := gradcount s; ilast := ilast s; iters := iters s |})
        | Some f =>                                                                               (* lines 259-271; count < n, so the loop continues *)
            let g' := fmingr Bn in
            let t' := fun i => tv s i * steplength s in
            let c' := fun i => g' i - cv s i in
            let D1 := forUp 0 n (fun i d => d + t' i * c' i) 0 in
            if Rlt_dec 0 D1 then
              inl (Outer, {| Bv := Bn; Fmin := f; Bm := metric n (Bm s) t' c' D1; cv := c'; gv := g'; tv := t'; Xv := Xv s; gradproj := gradproj s;
                             steplength := steplength s; gradcount := S (gradcount s); ilast := ilast s; iters := iters s |})
            else
              inl (Outer, {| Bv := Bn; Fmin := f; Bm := Bm s; cv := c'; gv := g'; tv := t'; Xv := Xv s; gradproj := gradproj s;
                             steplength := steplength s; gradcount := S (gradcount s); ilast := S (gradcount s); iters := iters s |})
        end
      else if (ilast s <? gradcount s)%nat then                                                   (* line 273: count = 0, ilast = gradcount *)
        let s' := {| Bv := Bn; Fmin := Fmin s; Bm := Bm s; cv := cv s; gv := gv s; tv := tv s; Xv := Xv s; gradproj := gradproj s;
                     steplength := steplength s; gradcount := gradcount s; ilast := gradcount s; iters := iters s |} in
        if Nat.eqb 0 n then inr {| codev := SUCCESS; oB := Bn; oF := Fmin s |} else inl (Outer, s')
      else if Nat.eqb (ilast s) (gradcount s) then inr {| codev := SUCCESS; oB := Bn; oF := Fmin s |}   (* line 276 *)
      else inl (Outer, {| Bv := Bn; Fmin := Fmin s; Bm := Bm s; cv := cv s; gv := gv s; tv := tv s; Xv := Xv s; gradproj := gradproj s;
                          steplength := steplength s; gradcount := gradcount s; ilast := ilast s; iters := iters s |})
  end.
(** lines 218-231: the state before the loop. The contents of B, c, t, X before they are first set are not used; they are taken as zero. *)
Definition vmminInit (f : R) (B0 g : vec) : pcv * stv :=
  (Outer, {| Bv := B0; Fmin := f; Bm := fun _ _ => 0; cv := fun _ => 0; gv := g; tv := fun _ => 0; Xv := fun _ => 0; gradproj := 0; steplength := 0;
             gradcount := 1; ilast := 1; iters := 0 |}).
Definition vmmin (n : nat) (fminfn : vec -> option R) (fmingr : vec -> vec) (reltest : R) (B0 : vec) (F0 : R) (r : outv) : Prop :=
  match fminfn B0 with
  | None => r = {| codev := BAD_INITIAL; oB := B0; oF := F0 |}
  | Some f => runs (vmminStep n fminfn fmingr reltest) (vmminInit f B0 (fmingr B0)) r
  end.

(** ** modmrt (nash.c 297-400) *)
Record stm : Type := { mB : vec; mX : vec; mF : R; lambda : R; mifn : nat; calcmat : bool; am : vec; cm : vec; vm : vec; resm : vec }.
(** lines 333-340: the residuals at Bvec, None when one is not computable; also 374-379, where at least one residual is evaluated *)
Definition residuals (m : nat) (nlres : nat -> vec -> option R) (B : vec) (res : vec) : option (vec * R) :=
  forUp 0 m (fun i st => match st with
                         | Some (res, p) => match nlres i B with Some y => Some (updv res i y, p + y * y) | None => None end
                         | None => None
                         end) (Some (res, 0)).
(** lines 346-355: a = J^T J in compact storage, v = J^T res *)
Definition normalEqs (n m : nat) (J : nat -> vec) (res : vec) : vec * vec :=
  forUp 0 m (fun i av =>
    forUp 1 (n + 1) (fun j av =>
      let '(a, v) := av in
      let X := J i in
      let v' := updv v (j - 1) (v (j - 1)%nat + X (j - 1)%nat * res i) in
      let q := (j * (j - 1) / 2)%nat in
      (forUp 1 (j + 1) (fun k a => updv a (q + k - 1) (a (q + k - 1)%nat + X (j - 1)%nat * X (k - 1)%nat)) a, v')) av)
    (fun _ => 0, fun _ => 0).
(** lines 359-364: the damped matrix *)
Definition damp (n : nat) (lam : R) (c a : vec) : vec :=
  forUp 1 (n + 1) (fun j a =>
    let q := (j * (j + 1) / 2)%nat in
    let a1 := updv a (q - 1) (c (q - 1)%nat * (1 + lam) + 1 * lam) in
    if (1 <? j)%nat then forUp 1 j (fun i a => updv a (q - i - 1) (c (q - i - 1)%nat)) a1 else a1) a.
(** lines 369-372 *)
Definition stillLe (n : nat) (X B : vec) (reltest : R) : nat :=
  forUp 0 n (fun i c => if Rle_dec (Rabs (B i - X i)) reltest then S c else c) O.
(** One pass of the loop, lines 344-396; [reject] is lines 392-394. *)
Definition modmrtStep (n m : nat) (nlres : nat -> vec -> option R) (nljac : nat -> vec -> vec) (reltest : R) (maxIter : nat) (s : stm) : stm + outv :=
  let '(c, v, X) := if calcmat s then let '(a, v) := normalEqs n m (fun i => nljac i (mB s)) (resm s) in (a, v, upto n (mB s) (mX s))
                    else (cm s, vm s, mX s) in
  let a := damp n (lambda s) c (if calcmat s then c else am s) in
  let delta0 := fun j => - v j in
  let '(L, singmat) := Choldcmp n a in
  let reject (B res : vec) (ifn : nat) :=
    let l1 := lambda s * 10 in
    let l2 := if Rlt_dec l1 (dblEps * dblEps) then dblEps else l1 in
    inl {| mB := B; mX := X; mF := mF s; lambda := l2; mifn := ifn; calcmat := false; am := L; cm := c; vm := v; resm := res |} in
  if singmat then reject (mB s) (resm s) (mifn s)
  else
    let delta := Cholback n L delta0 in
    let B := upto n (fun i => X i + delta i) (mB s) in
    let count := stillLe n X B reltest in
    if (count <? n)%nat then
      let trial := residuals (Nat.max m 1) nlres B (resm s) in
      let ifn := S (mifn s) in
      if (maxIter <? ifn)%nat then inr {| codev := ITERS_EXCEEDED; oB := B; oF := mF s |}
      else match trial with
           | Some (res, p) =>
               if Rlt_dec p (mF s)
               then inl {| mB := B; mX := X; mF := p; lambda := lambda s * (2/5); mifn := ifn; calcmat := true; am := L; cm := c; vm := v; resm := res |}
               else reject B res ifn
           | None => reject B (resm s) ifn      (* the residuals evaluated before the failing one stay in res; they are not used again before a full evaluation *)
           end
    else inr {| codev := SUCCESS; oB := B; oF := mF s |}.
(** lines 317-341. F0 is the value of *Fmin set at line 317 (DBL_MAX). *)
Definition modmrt (n m : nat) (nlres : nat -> vec -> option R) (nljac : nat -> vec -> vec) (reltest : R) (maxIter : nat) (B0 : vec) (F0 : R) (r : outv) : Prop :=
  if Nat.eqb n 0 then r = {| codev := SUCCESS; oB := B0; oF := F0 |}
  else match residuals m nlres B0 (fun _ => 0) with
       | None => r = {| codev := BAD_INITIAL; oB := B0; oF := F0 |}
       | Some (res, p) => runs (modmrtStep n m nlres nljac reltest maxIter)
           {| mB := B0; mX := fun _ => 0; mF := p; lambda := 1/10000; mifn := 1; calcmat := true; am := fun _ => 0; cm := fun _ => 0; vm := fun _ => 0; resm := res |} r
       end.
