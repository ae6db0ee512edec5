(** Model of copySilminStateStructure, sources/silmin_support.c 410-735: making
    a new copy of the state of the system, and overwriting an existing one.

    An array is a block of memory (its identity [blk]) with contents; two
    structures that hold the same block share it, and a write through one is
    seen through the other. Simplifications: numbers are reals and counts are
    naturals; the lengths of blocks are not modelled (so realloc, lines 546-575
    and 628-633, which only changes a length, keeps the block); plain members
    of the structure are gathered in one function [sc] from member number to
    value; memory never runs out. *)
From Coq Require Import Reals Arith Bool List.
Import ListNotations.
Local Open Scope nat_scope.

Record arr := Arr { blk : nat; val : nat -> R }.
Record iarr := IArr { iblk : nat; ival : nat -> nat }.
(** double **: the block of pointers, and the arrays they point to *)
Record fam := Fam { l1 : nat; col : nat -> arr }.
(** the same where pointers may be NULL *)
Record ofam := OFam { ol1 : nat; ocol : nat -> option arr }.

(** includes/silmin.h 658-743 *)
Record state := St {
  sc : nat -> R;            (* bulkTD ... plotState: every plain member but the ones below *)
  bulk : arr; dspBulk : arr;
  liq : fam; liqD : fam; nLiq : nat;
  sol : fam; solD : fam; nSol : iarr; inc : iarr; cyl : iarr;
  fSol : bool; fFlu : bool; fLiq : bool;
  frac : option ofam; nFrac : option iarr; fracL : option arr;
  assim : bool; dspAs : option ofam; nDspAs : option iarr; asC : option ofam; nAs : option iarr;
  ySol : option arr; yLiq : option arr;
  ready : bool              (* ready_to_output *)
}.

(** the tables: nc oxides, nlc liquid components, npc entries of solids[],
    which of them are phases (type == PHASE) and how many components each has *)
Record tables := Tb { nc : nat; nlc : nat; npc : nat; isPhase : nat -> bool; na : nat -> nat }.

(** for (j = 0; j < n; j++) dst[j] = src[j] *)
Definition upto {X} (n : nat) (src dst : nat -> X) : nat -> X := fun j => if j <? n then src j else dst j.
Definition zeros : nat -> R := fun _ => 0%R.
Definition copyArr (n : nat) (src dst : arr) : arr := Arr (blk dst) (upto n (val src) (val dst)).
Definition copyInts (n : nat) (src dst : iarr) : iarr := IArr (iblk dst) (upto n (ival src) (ival dst)).
Definition setCol (f : fam) (i : nat) (a : arr) : fam := Fam (l1 f) (fun k => if k =? i then a else col f k).
Definition osetCol (f : ofam) (i : nat) (a : option arr) : ofam := OFam (ol1 f) (fun k => if k =? i then a else ocol f k).

Fixpoint for_ {X} (n : nat) (f : nat -> X -> X) (x : X) : X := match n with O => x | S i => f i (for_ i f x) end.

(** lines 459-487: a new block for every entry of solids[]; [q] is the next
    free block number, entry k of the two families takes q + k and q + npc + k.
    A phase with compositions takes its components with it and the loop
    continues after them (i += na, i++) *)
Fixpoint newSolids (fuel i : nat) (t : tables) (o : state) (q : nat) (s : fam * fam) : fam * fam :=
  match fuel with
  | O => s
  | S f =>
    if i <? npc t then
      let ns := ival (nSol o) i in
      let put k (s : fam * fam) :=
        (setCol (fst s) k (Arr (q + k) (upto ns (val (col (sol o) k)) zeros)),
         setCol (snd s) k (Arr (q + npc t + k) (upto ns (val (col (solD o) k)) zeros))) in
      if 0 <? ns then
        if isPhase t i then
          let s := put i s in
          if 1 <? na t i then newSolids f (S (i + na t i)) t o q (for_ (na t i) (fun k s => put (i + 1 + k) s) s)
          else newSolids f (S i) t o q s
        else newSolids f (S i) t o q s
      else newSolids f (S i) t o q
             (setCol (fst s) i (Arr (q + i) zeros), setCol (snd s) i (Arr (q + npc t + i) zeros))
    else s
  end.

(** lines 489-506 *)
Definition newFrac (t : tables) (o : state) (q : nat) : option ofam * option iarr :=
  if fSol o || fFlu o then
    let z := (OFam q (fun _ => None), IArr (q + 1) (fun _ => 0)) in
    let r :=
      match nFrac o, frac o with
      | Some n, Some f =>
        for_ (npc t) (fun i (s : ofam * iarr) =>
          let s1 := IArr (iblk (snd s)) (fun k => if k =? i then ival n i else ival (snd s) k) in
          let ns := ival n i in
          let put k (g : ofam) :=
            osetCol g k (Some (Arr (q + 2 + k) (upto ns (match ocol f k with Some a => val a | None => zeros end) zeros))) in
          let g := if 0 <? ns then
                     let g := put i (fst s) in
                     if 1 <? na t i then for_ (na t i) (fun k g => put (i + 1 + k) g) g else g
                   else fst s in
          (g, s1)) z
      | _, _ => z
      end in
    (Some (fst r), Some (snd r))
  else (frac o, nFrac o).

(** lines 513-537, one of the two assimilant tables with n entries *)
Definition newAssim (n : nat) (c : option iarr) (f : option ofam) (q : nat) : option ofam * option iarr :=
  match c, f with
  | Some c, Some f =>
    (Some (OFam q (fun k => if (k <? n) && (0 <? ival c k)
                            then Some (Arr (q + 2 + k) (upto (ival c k) (match ocol f k with Some a => val a | None => zeros end) zeros)) else None)),
     Some (IArr (q + 1) (upto n (ival c) (fun _ => 0))))
  | _, _ => (Some (OFam q (fun _ => None)), Some (IArr (q + 1) (fun _ => 0)))
  end.

(** copySilminStateStructure (pOld, NULL), lines 414-538; [q] is above every
    block in use. *)
Definition copyNew (t : tables) (o : state) (q : nat) : state :=
  let nl := Nat.max 1 (nLiq o) in
  let q1 := q + 11 in                 (* bulk .. cylSolids, the pointer blocks *)
  let q2 := q1 + 2 * nl in
  let q3 := q2 + 2 * npc t in
  let q4 := q3 + 2 + npc t in
  let q5 := q4 + 1 in
  let q6 := q5 + 2 + (npc t + nc t) in
  let s := newSolids (npc t) 0 t o q2
             (Fam (q + 5) (fun _ => Arr 0 zeros), Fam (q + 6) (fun _ => Arr 0 zeros)) in
  let fr := newFrac t o q3 in
  let das := if assim o then newAssim (npc t + nc t) (nDspAs o) (dspAs o) q5 else (dspAs o, nDspAs o) in
  let as_ := if assim o then newAssim (npc t + nlc t) (nAs o) (asC o) q6 else (asC o, nAs o) in
  St (sc o)                            (* line 419, memcpy *)
     (Arr q (upto (nc t) (val (bulk o)) zeros)) (Arr (q + 1) (upto (nc t) (val (dspBulk o)) zeros))
     (Fam (q + 2) (fun i => Arr (q1 + i) (upto (nlc t) (val (col (liq o) i)) zeros)))
     (Fam (q + 3) (fun i => Arr (q1 + nl + i) (upto (nlc t) (val (col (liqD o) i)) zeros)))
     (nLiq o)
     (fst s) (snd s)
     (IArr (q + 4) (upto (npc t) (ival (nSol o)) (fun _ => 0)))
     (IArr (q + 7) (upto (S (npc t)) (ival (inc o)) (fun _ => 0)))
     (IArr (q + 8) (upto (npc t) (ival (cyl o)) (fun _ => 0)))
     (fSol o) (fFlu o) (fLiq o)
     (fst fr) (snd fr)
     (if fLiq o then Some (Arr q4 (upto (nlc t) (match fracL o with Some a => val a | None => zeros end) zeros)) else fracL o)
     (assim o) (fst das) (snd das) (fst as_) (snd as_)
     (ySol o) (yLiq o) (ready o).

(** lines 543-562, one of the two families of liquid compositions: liquid 0 is
    copied first; the rest only when the numbers of liquids differ *)
Definition intoLiq (t : tables) (no nn : nat) (src dst : fam) (q : nat) : fam :=
  let d := setCol dst 0 (copyArr (nlc t) (col src 0) (col dst 0)) in
  if nn =? no then d
  else
    let d := Fam (l1 d) (fun i => if (nn <=? i) && (i <? no) then Arr (q + i) zeros else col d i) in
    Fam (l1 d) (fun i => if (1 <=? i) && (i <? no) then copyArr (nlc t) (col src i) (col d i) else col d i).

(** lines 579-591 *)
Definition intoSolids (t : tables) (o : state) (src dst : fam) : fam :=
  for_ (npc t) (fun i d =>
    let ns := ival (nSol o) i in
    let cp k d := setCol d k (copyArr ns (col src k) (col d k)) in
    let d := cp i d in
    if isPhase t i && (1 <? na t i) then for_ (na t i) (fun k d => cp (i + 1 + k) d) d else d) dst.

(** REALLOC of a pointer that may be NULL (line 630 and the macro): a new block
    if there was none *)
Definition realloc (a : option arr) (b : nat) : arr := match a with Some x => x | None => Arr b zeros end.

(** lines 625-647 *)
Definition intoFrac (t : tables) (o n : state) (q : nat) : option ofam * option iarr :=
  if fSol o || fFlu o then
    let z := match nFrac n, frac n with
             | Some c, Some f => (f, c)
             | Some c, None => (OFam q (fun _ => None), c)
             | None, _ => (OFam q (fun _ => None), IArr (q + 1) (fun _ => 0))
             end in
    match nFrac o, frac o with
    | Some c, Some f =>
      let r := for_ (npc t) (fun i (s : ofam * iarr) =>
        let ns := ival c i in
        let grow k (g : ofam) := osetCol g k (Some (realloc (ocol g k) (q + 2 + k))) in
        let cp k (g : ofam) :=
          osetCol g k (match ocol g k, ocol f k with
                       | Some d, Some a => Some (copyArr ns a d)
                       | x, _ => x end) in
        let g := if ival (snd s) i =? ns then fst s
                 else let g := grow i (fst s) in if 1 <? na t i then for_ (na t i) (fun k g => grow (i + 1 + k) g) g else g in
        let g := if 0 <? ns then let g := cp i g in if 1 <? na t i then for_ (na t i) (fun k g => cp (i + 1 + k) g) g else g else g in
        (g, IArr (iblk (snd s)) (fun k => if k =? i then ns else ival (snd s) k))) z in
      (Some (fst r), Some (snd r))
    | _, _ => (Some (fst z), Some (snd z))
    end
  else if (fSol n || fFlu n) && (match nFrac n with Some _ => true | None => false end) && (match frac n with Some _ => true | None => false end)
  then (None, None)
  else (frac n, nFrac n).

(** copySilminStateStructure (pOld, pNew) with pNew not NULL, lines 539-732;
    [q] is above every block in use *)
Definition copyInto (t : tables) (o n : state) (q : nat) : state :=
  let q1 := q + nLiq o in
  let q2 := q1 + nLiq o in
  let q3 := q2 + 2 + npc t in
  let q4 := q3 + 1 in
  let q5 := q4 + 2 + (npc t + nc t) in
  let fr := intoFrac t o n q2 in
  (* line 657: by now the flags of pNew are those of pOld *)
  let fl := if fLiq o then Some (copyArr (if fracL o then nlc t else 0) (match fracL o with Some a => a | None => Arr 0 zeros end)
                                   (match fracL n with Some d => d | None => Arr q3 zeros end))
            else if (fSol o || fFlu o) && (if fracL n then true else false) then None else fracL n in
  let das := if assim o then newAssim (npc t + nc t) (nDspAs o) (dspAs o) q4 else if assim n then (None, None) else (dspAs n, nDspAs n) in
  let as_ := if assim o then newAssim (npc t + nlc t) (nAs o) (asC o) q5 else if assim n then (None, None) else (asC n, nAs n) in
  St (sc o)
     (copyArr (nc t) (bulk o) (bulk n)) (copyArr (nc t) (dspBulk o) (dspBulk n))
     (intoLiq t (nLiq o) (nLiq n) (liq o) (liq n) q) (intoLiq t (nLiq o) (nLiq n) (liqD o) (liqD n) q1)
     (nLiq o)
     (intoSolids t o (sol o) (sol n)) (intoSolids t o (solD o) (solD n))
     (copyInts (npc t) (nSol o) (nSol n)) (copyInts (S (npc t)) (inc o) (inc n)) (copyInts (npc t) (cyl o) (cyl n))
     (fSol o) (fFlu o) (fLiq o)
     (fst fr) (snd fr) fl
     (assim o) (fst das) (snd das) (fst as_) (snd as_)
     (ySol n) (yLiq n) (ready n).
