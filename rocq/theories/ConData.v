(** GENERATED by tools/gen_soln.py from /repo/sources: do not edit. The conversion functions conXxx of the 28 solid, fluid and
    alloy solution phases (inpMask SECOND: from moles of components; THIRD: from the independent variables). *)
From Coq Require Import QArith NArith List String.
From Verif Require Import Sym SolnModel.
Import List ListNotations.
Local Open Scope N_scope.
Local Open Scope Q_scope.
Local Open Scope string_scope.
Local Open Scope sym_scope.
Arguments Num _%Q. Arguments Var _%N. Arguments Site _%N. Arguments Log _%N.

(** sources/feldspar.c 336-492: conFld, inpMask SECOND, output r[i] from m *)
Definition Fld_con_r :=
  [Var 20 / Site 0;
    Var 21 / Site 0].
(** sources/feldspar.c 336-492: conFld, inpMask SECOND, output x[i] from m *)
Definition Fld_con_x :=
  [Var 20 / Site 0;
    Var 21 / Site 0;
    Var 22 / Site 0].
(** sources/feldspar.c 336-492: conFld, inpMask SECOND, output dm[i][j] *)
Definition Fld_con_dm :=
  [[(Num (1#1) - Var 20 / Site 0) / Site 0;
    (- Var 20) / (Site 0 * Site 0);
    (- Var 20) / (Site 0 * Site 0)];
    [(- Var 21) / (Site 0 * Site 0);
    (Num (1#1) - Var 21 / Site 0) / Site 0;
    (- Var 21) / (Site 0 * Site 0)]].
(** sources/feldspar.c 336-492: conFld, inpMask SECOND, output d2m[i][j][k] *)
Definition Fld_con_d2m :=
  [[[Num (2#1) * Var 20 / (Site 0 * Site 0 * Site 0) - Num (1#1) / (Site 0 * Site 0) - Num (1#1) / (Site 0 * Site 0);
    Num (2#1) * Var 20 / (Site 0 * Site 0 * Site 0) - Num (1#1) / (Site 0 * Site 0);
    Num (2#1) * Var 20 / (Site 0 * Site 0 * Site 0) - Num (1#1) / (Site 0 * Site 0)];
    [Num (2#1) * Var 20 / (Site 0 * Site 0 * Site 0) - Num (1#1) / (Site 0 * Site 0);
    Num (2#1) * Var 20 / (Site 0 * Site 0 * Site 0);
    Num (2#1) * Var 20 / (Site 0 * Site 0 * Site 0)];
    [Num (2#1) * Var 20 / (Site 0 * Site 0 * Site 0) - Num (1#1) / (Site 0 * Site 0);
    Num (2#1) * Var 20 / (Site 0 * Site 0 * Site 0);
    Num (2#1) * Var 20 / (Site 0 * Site 0 * Site 0)]];
    [[Num (2#1) * Var 21 / (Site 0 * Site 0 * Site 0);
    Num (2#1) * Var 21 / (Site 0 * Site 0 * Site 0) - Num (1#1) / (Site 0 * Site 0);
    Num (2#1) * Var 21 / (Site 0 * Site 0 * Site 0)];
    [Num (2#1) * Var 21 / (Site 0 * Site 0 * Site 0) - Num (1#1) / (Site 0 * Site 0);
    Num (2#1) * Var 21 / (Site 0 * Site 0 * Site 0) - Num (1#1) / (Site 0 * Site 0) - Num (1#1) / (Site 0 * Site 0);
    Num (2#1) * Var 21 / (Site 0 * Site 0 * Site 0) - Num (1#1) / (Site 0 * Site 0)];
    [Num (2#1) * Var 21 / (Site 0 * Site 0 * Site 0);
    Num (2#1) * Var 21 / (Site 0 * Site 0 * Site 0) - Num (1#1) / (Site 0 * Site 0);
    Num (2#1) * Var 21 / (Site 0 * Site 0 * Site 0)]]].
(** sources/feldspar.c 336-492: conFld, inpMask SECOND, output d3m[i][j][k][l] *)
Definition Fld_con_d3m :=
  [[[[Num (-6#1) * Var 20 / (Site 0 * Site 0 * Site 0 * Site 0) + Num (2#1) / (Site 0 * Site 0 * Site 0) + Num (2#1) / (Site 0 * Site 0 * Site 0) + Num (2#1) / (Site 0 * Site 0 * Site 0);
    Num (-6#1) * Var 20 / (Site 0 * Site 0 * Site 0 * Site 0) + Num (2#1) / (Site 0 * Site 0 * Site 0) + Num (2#1) / (Site 0 * Site 0 * Site 0);
    Num (-6#1) * Var 20 / (Site 0 * Site 0 * Site 0 * Site 0) + Num (2#1) / (Site 0 * Site 0 * Site 0) + Num (2#1) / (Site 0 * Site 0 * Site 0)];
    [Num (-6#1) * Var 20 / (Site 0 * Site 0 * Site 0 * Site 0) + Num (2#1) / (Site 0 * Site 0 * Site 0) + Num (2#1) / (Site 0 * Site 0 * Site 0);
    Num (-6#1) * Var 20 / (Site 0 * Site 0 * Site 0 * Site 0) + Num (2#1) / (Site 0 * Site 0 * Site 0);
    Num (-6#1) * Var 20 / (Site 0 * Site 0 * Site 0 * Site 0) + Num (2#1) / (Site 0 * Site 0 * Site 0)];
    [Num (-6#1) * Var 20 / (Site 0 * Site 0 * Site 0 * Site 0) + Num (2#1) / (Site 0 * Site 0 * Site 0) + Num (2#1) / (Site 0 * Site 0 * Site 0);
    Num (-6#1) * Var 20 / (Site 0 * Site 0 * Site 0 * Site 0) + Num (2#1) / (Site 0 * Site 0 * Site 0);
    Num (-6#1) * Var 20 / (Site 0 * Site 0 * Site 0 * Site 0) + Num (2#1) / (Site 0 * Site 0 * Site 0)]];
    [[Num (-6#1) * Var 20 / (Site 0 * Site 0 * Site 0 * Site 0) + Num (2#1) / (Site 0 * Site 0 * Site 0) + Num (2#1) / (Site 0 * Site 0 * Site 0);
    Num (-6#1) * Var 20 / (Site 0 * Site 0 * Site 0 * Site 0) + Num (2#1) / (Site 0 * Site 0 * Site 0);
    Num (-6#1) * Var 20 / (Site 0 * Site 0 * Site 0 * Site 0) + Num (2#1) / (Site 0 * Site 0 * Site 0)];
    [Num (-6#1) * Var 20 / (Site 0 * Site 0 * Site 0 * Site 0) + Num (2#1) / (Site 0 * Site 0 * Site 0);
    Num (-6#1) * Var 20 / (Site 0 * Site 0 * Site 0 * Site 0);
    Num (-6#1) * Var 20 / (Site 0 * Site 0 * Site 0 * Site 0)];
    [Num (-6#1) * Var 20 / (Site 0 * Site 0 * Site 0 * Site 0) + Num (2#1) / (Site 0 * Site 0 * Site 0);
    Num (-6#1) * Var 20 / (Site 0 * Site 0 * Site 0 * Site 0);
    Num (-6#1) * Var 20 / (Site 0 * Site 0 * Site 0 * Site 0)]];
    [[Num (-6#1) * Var 20 / (Site 0 * Site 0 * Site 0 * Site 0) + Num (2#1) / (Site 0 * Site 0 * Site 0) + Num (2#1) / (Site 0 * Site 0 * Site 0);
    Num (-6#1) * Var 20 / (Site 0 * Site 0 * Site 0 * Site 0) + Num (2#1) / (Site 0 * Site 0 * Site 0);
    Num (-6#1) * Var 20 / (Site 0 * Site 0 * Site 0 * Site 0) + Num (2#1) / (Site 0 * Site 0 * Site 0)];
    [Num (-6#1) * Var 20 / (Site 0 * Site 0 * Site 0 * Site 0) + Num (2#1) / (Site 0 * Site 0 * Site 0);
    Num (-6#1) * Var 20 / (Site 0 * Site 0 * Site 0 * Site 0);
    Num (-6#1) * Var 20 / (Site 0 * Site 0 * Site 0 * Site 0)];
    [Num (-6#1) * Var 20 / (Site 0 * Site 0 * Site 0 * Site 0) + Num (2#1) / (Site 0 * Site 0 * Site 0);
    Num (-6#1) * Var 20 / (Site 0 * Site 0 * Site 0 * Site 0);
    Num (-6#1) * Var 20 / (Site 0 * Site 0 * Site 0 * Site 0)]]];
    [[[Num (-6#1) * Var 21 / (Site 0 * Site 0 * Site 0 * Site 0);
    Num (-6#1) * Var 21 / (Site 0 * Site 0 * Site 0 * Site 0) + Num (2#1) / (Site 0 * Site 0 * Site 0);
    Num (-6#1) * Var 21 / (Site 0 * Site 0 * Site 0 * Site 0)];
    [Num (-6#1) * Var 21 / (Site 0 * Site 0 * Site 0 * Site 0) + Num (2#1) / (Site 0 * Site 0 * Site 0);
    Num (-6#1) * Var 21 / (Site 0 * Site 0 * Site 0 * Site 0) + Num (2#1) / (Site 0 * Site 0 * Site 0) + Num (2#1) / (Site 0 * Site 0 * Site 0);
    Num (-6#1) * Var 21 / (Site 0 * Site 0 * Site 0 * Site 0) + Num (2#1) / (Site 0 * Site 0 * Site 0)];
    [Num (-6#1) * Var 21 / (Site 0 * Site 0 * Site 0 * Site 0);
    Num (-6#1) * Var 21 / (Site 0 * Site 0 * Site 0 * Site 0) + Num (2#1) / (Site 0 * Site 0 * Site 0);
    Num (-6#1) * Var 21 / (Site 0 * Site 0 * Site 0 * Site 0)]];
    [[Num (-6#1) * Var 21 / (Site 0 * Site 0 * Site 0 * Site 0) + Num (2#1) / (Site 0 * Site 0 * Site 0);
    Num (-6#1) * Var 21 / (Site 0 * Site 0 * Site 0 * Site 0) + Num (2#1) / (Site 0 * Site 0 * Site 0) + Num (2#1) / (Site 0 * Site 0 * Site 0);
    Num (-6#1) * Var 21 / (Site 0 * Site 0 * Site 0 * Site 0) + Num (2#1) / (Site 0 * Site 0 * Site 0)];
    [Num (-6#1) * Var 21 / (Site 0 * Site 0 * Site 0 * Site 0) + Num (2#1) / (Site 0 * Site 0 * Site 0) + Num (2#1) / (Site 0 * Site 0 * Site 0);
    Num (-6#1) * Var 21 / (Site 0 * Site 0 * Site 0 * Site 0) + Num (2#1) / (Site 0 * Site 0 * Site 0) + Num (2#1) / (Site 0 * Site 0 * Site 0) + Num (2#1) / (Site 0 * Site 0 * Site 0);
    Num (-6#1) * Var 21 / (Site 0 * Site 0 * Site 0 * Site 0) + Num (2#1) / (Site 0 * Site 0 * Site 0) + Num (2#1) / (Site 0 * Site 0 * Site 0)];
    [Num (-6#1) * Var 21 / (Site 0 * Site 0 * Site 0 * Site 0) + Num (2#1) / (Site 0 * Site 0 * Site 0);
    Num (-6#1) * Var 21 / (Site 0 * Site 0 * Site 0 * Site 0) + Num (2#1) / (Site 0 * Site 0 * Site 0) + Num (2#1) / (Site 0 * Site 0 * Site 0);
    Num (-6#1) * Var 21 / (Site 0 * Site 0 * Site 0 * Site 0) + Num (2#1) / (Site 0 * Site 0 * Site 0)]];
    [[Num (-6#1) * Var 21 / (Site 0 * Site 0 * Site 0 * Site 0);
    Num (-6#1) * Var 21 / (Site 0 * Site 0 * Site 0 * Site 0) + Num (2#1) / (Site 0 * Site 0 * Site 0);
    Num (-6#1) * Var 21 / (Site 0 * Site 0 * Site 0 * Site 0)];
    [Num (-6#1) * Var 21 / (Site 0 * Site 0 * Site 0 * Site 0) + Num (2#1) / (Site 0 * Site 0 * Site 0);
    Num (-6#1) * Var 21 / (Site 0 * Site 0 * Site 0 * Site 0) + Num (2#1) / (Site 0 * Site 0 * Site 0) + Num (2#1) / (Site 0 * Site 0 * Site 0);
    Num (-6#1) * Var 21 / (Site 0 * Site 0 * Site 0 * Site 0) + Num (2#1) / (Site 0 * Site 0 * Site 0)];
    [Num (-6#1) * Var 21 / (Site 0 * Site 0 * Site 0 * Site 0);
    Num (-6#1) * Var 21 / (Site 0 * Site 0 * Site 0 * Site 0) + Num (2#1) / (Site 0 * Site 0 * Site 0);
    Num (-6#1) * Var 21 / (Site 0 * Site 0 * Site 0 * Site 0)]]]].
(** sources/feldspar.c 336-492: conFld, inpMask THIRD, output x[i] from r *)
Definition Fld_con_xr :=
  [Var 2;
    Var 3;
    Num (1#1) - Var 2 - Var 3].
(** sources/feldspar.c 336-492: conFld, inpMask THIRD, output dr[i][j] *)
Definition Fld_con_dr :=
  [[Num (1#1);
    Num (0#1)];
    [Num (0#1);
    Num (1#1)];
    [Num (-1#1);
    Num (-1#1)]].
(** sources/feldspar.c 336-492: x[i] from r is set to zero when it is smaller in absolute value than this number *)
Definition Fld_con_snap : list (nat * Q) := [(2%nat, (1#67108864))].
Definition conFld : conv :=
  mkConv "feldspar" 3 2 Fld_con_r Fld_con_x Fld_con_dm Fld_con_d2m Fld_con_d3m Fld_con_xr Fld_con_dr Fld_con_snap.

(** sources/garnet.c 349-503: conGrn, inpMask SECOND, output r[i] from m *)
Definition Grn_con_r :=
  [Var 20 / Site 0;
    Var 21 / Site 0].
(** sources/garnet.c 349-503: conGrn, inpMask SECOND, output x[i] from m *)
Definition Grn_con_x :=
  [Var 20 / Site 0;
    Var 21 / Site 0;
    Var 22 / Site 0].
(** sources/garnet.c 349-503: conGrn, inpMask SECOND, output dm[i][j] *)
Definition Grn_con_dm :=
  [[(Num (1#1) - Var 20 / Site 0) / Site 0;
    (- Var 20) / (Site 0 * Site 0);
    (- Var 20) / (Site 0 * Site 0)];
    [(- Var 21) / (Site 0 * Site 0);
    (Num (1#1) - Var 21 / Site 0) / Site 0;
    (- Var 21) / (Site 0 * Site 0)]].
(** sources/garnet.c 349-503: conGrn, inpMask SECOND, output d2m[i][j][k] *)
Definition Grn_con_d2m :=
  [[[Num (2#1) * Var 20 / (Site 0 * Site 0 * Site 0) - Num (1#1) / (Site 0 * Site 0) - Num (1#1) / (Site 0 * Site 0);
    Num (2#1) * Var 20 / (Site 0 * Site 0 * Site 0) - Num (1#1) / (Site 0 * Site 0);
    Num (2#1) * Var 20 / (Site 0 * Site 0 * Site 0) - Num (1#1) / (Site 0 * Site 0)];
    [Num (2#1) * Var 20 / (Site 0 * Site 0 * Site 0) - Num (1#1) / (Site 0 * Site 0);
    Num (2#1) * Var 20 / (Site 0 * Site 0 * Site 0);
    Num (2#1) * Var 20 / (Site 0 * Site 0 * Site 0)];
    [Num (2#1) * Var 20 / (Site 0 * Site 0 * Site 0) - Num (1#1) / (Site 0 * Site 0);
    Num (2#1) * Var 20 / (Site 0 * Site 0 * Site 0);
    Num (2#1) * Var 20 / (Site 0 * Site 0 * Site 0)]];
    [[Num (2#1) * Var 21 / (Site 0 * Site 0 * Site 0);
    Num (2#1) * Var 21 / (Site 0 * Site 0 * Site 0) - Num (1#1) / (Site 0 * Site 0);
    Num (2#1) * Var 21 / (Site 0 * Site 0 * Site 0)];
    [Num (2#1) * Var 21 / (Site 0 * Site 0 * Site 0) - Num (1#1) / (Site 0 * Site 0);
    Num (2#1) * Var 21 / (Site 0 * Site 0 * Site 0) - Num (1#1) / (Site 0 * Site 0) - Num (1#1) / (Site 0 * Site 0);
    Num (2#1) * Var 21 / (Site 0 * Site 0 * Site 0) - Num (1#1) / (Site 0 * Site 0)];
    [Num (2#1) * Var 21 / (Site 0 * Site 0 * Site 0);
    Num (2#1) * Var 21 / (Site 0 * Site 0 * Site 0) - Num (1#1) / (Site 0 * Site 0);
    Num (2#1) * Var 21 / (Site 0 * Site 0 * Site 0)]]].
(** sources/garnet.c 349-503: conGrn, inpMask SECOND, output d3m[i][j][k][l] *)
Definition Grn_con_d3m :=
  [[[[Num (-6#1) * Var 20 / (Site 0 * Site 0 * Site 0 * Site 0) + Num (2#1) / (Site 0 * Site 0 * Site 0) + Num (2#1) / (Site 0 * Site 0 * Site 0) + Num (2#1) / (Site 0 * Site 0 * Site 0);
    Num (-6#1) * Var 20 / (Site 0 * Site 0 * Site 0 * Site 0) + Num (2#1) / (Site 0 * Site 0 * Site 0) + Num (2#1) / (Site 0 * Site 0 * Site 0);
    Num (-6#1) * Var 20 / (Site 0 * Site 0 * Site 0 * Site 0) + Num (2#1) / (Site 0 * Site 0 * Site 0) + Num (2#1) / (Site 0 * Site 0 * Site 0)];
    [Num (-6#1) * Var 20 / (Site 0 * Site 0 * Site 0 * Site 0) + Num (2#1) / (Site 0 * Site 0 * Site 0) + Num (2#1) / (Site 0 * Site 0 * Site 0);
    Num (-6#1) * Var 20 / (Site 0 * Site 0 * Site 0 * Site 0) + Num (2#1) / (Site 0 * Site 0 * Site 0);
    Num (-6#1) * Var 20 / (Site 0 * Site 0 * Site 0 * Site 0) + Num (2#1) / (Site 0 * Site 0 * Site 0)];
    [Num (-6#1) * Var 20 / (Site 0 * Site 0 * Site 0 * Site 0) + Num (2#1) / (Site 0 * Site 0 * Site 0) + Num (2#1) / (Site 0 * Site 0 * Site 0);
    Num (-6#1) * Var 20 / (Site 0 * Site 0 * Site 0 * Site 0) + Num (2#1) / (Site 0 * Site 0 * Site 0);
    Num (-6#1) * Var 20 / (Site 0 * Site 0 * Site 0 * Site 0) + Num (2#1) / (Site 0 * Site 0 * Site 0)]];
    [[Num (-6#1) * Var 20 / (Site 0 * Site 0 * Site 0 * Site 0) + Num (2#1) / (Site 0 * Site 0 * Site 0) + Num (2#1) / (Site 0 * Site 0 * Site 0);
    Num (-6#1) * Var 20 / (Site 0 * Site 0 * Site 0 * Site 0) + Num (2#1) / (Site 0 * Site 0 * Site 0);
    Num (-6#1) * Var 20 / (Site 0 * Site 0 * Site 0 * Site 0) + Num (2#1) / (Site 0 * Site 0 * Site 0)];
    [Num (-6#1) * Var 20 / (Site 0 * Site 0 * Site 0 * Site 0) + Num (2#1) / (Site 0 * Site 0 * Site 0);
    Num (-6#1) * Var 20 / (Site 0 * Site 0 * Site 0 * Site 0);
    Num (-6#1) * Var 20 / (Site 0 * Site 0 * Site 0 * Site 0)];
    [Num (-6#1) * Var 20 / (Site 0 * Site 0 * Site 0 * Site 0) + Num (2#1) / (Site 0 * Site 0 * Site 0);
    Num (-6#1) * Var 20 / (Site 0 * Site 0 * Site 0 * Site 0);
    Num (-6#1) * Var 20 / (Site 0 * Site 0 * Site 0 * Site 0)]];
    [[Num (-6#1) * Var 20 / (Site 0 * Site 0 * Site 0 * Site 0) + Num (2#1) / (Site 0 * Site 0 * Site 0) + Num (2#1) / (Site 0 * Site 0 * Site 0);
    Num (-6#1) * Var 20 / (Site 0 * Site 0 * Site 0 * Site 0) + Num (2#1) / (Site 0 * Site 0 * Site 0);
    Num (-6#1) * Var 20 / (Site 0 * Site 0 * Site 0 * Site 0) + Num (2#1) / (Site 0 * Site 0 * Site 0)];
    [Num (-6#1) * Var 20 / (Site 0 * Site 0 * Site 0 * Site 0) + Num (2#1) / (Site 0 * Site 0 * Site 0);
    Num (-6#1) * Var 20 / (Site 0 * Site 0 * Site 0 * Site 0);
    Num (-6#1) * Var 20 / (Site 0 * Site 0 * Site 0 * Site 0)];
    [Num (-6#1) * Var 20 / (Site 0 * Site 0 * Site 0 * Site 0) + Num (2#1) / (Site 0 * Site 0 * Site 0);
    Num (-6#1) * Var 20 / (Site 0 * Site 0 * Site 0 * Site 0);
    Num (-6#1) * Var 20 / (Site 0 * Site 0 * Site 0 * Site 0)]]];
    [[[Num (-6#1) * Var 21 / (Site 0 * Site 0 * Site 0 * Site 0);
    Num (-6#1) * Var 21 / (Site 0 * Site 0 * Site 0 * Site 0) + Num (2#1) / (Site 0 * Site 0 * Site 0);
    Num (-6#1) * Var 21 / (Site 0 * Site 0 * Site 0 * Site 0)];
    [Num (-6#1) * Var 21 / (Site 0 * Site 0 * Site 0 * Site 0) + Num (2#1) / (Site 0 * Site 0 * Site 0);
    Num (-6#1) * Var 21 / (Site 0 * Site 0 * Site 0 * Site 0) + Num (2#1) / (Site 0 * Site 0 * Site 0) + Num (2#1) / (Site 0 * Site 0 * Site 0);
    Num (-6#1) * Var 21 / (Site 0 * Site 0 * Site 0 * Site 0) + Num (2#1) / (Site 0 * Site 0 * Site 0)];
    [Num (-6#1) * Var 21 / (Site 0 * Site 0 * Site 0 * Site 0);
    Num (-6#1) * Var 21 / (Site 0 * Site 0 * Site 0 * Site 0) + Num (2#1) / (Site 0 * Site 0 * Site 0);
    Num (-6#1) * Var 21 / (Site 0 * Site 0 * Site 0 * Site 0)]];
    [[Num (-6#1) * Var 21 / (Site 0 * Site 0 * Site 0 * Site 0) + Num (2#1) / (Site 0 * Site 0 * Site 0);
    Num (-6#1) * Var 21 / (Site 0 * Site 0 * Site 0 * Site 0) + Num (2#1) / (Site 0 * Site 0 * Site 0) + Num (2#1) / (Site 0 * Site 0 * Site 0);
    Num (-6#1) * Var 21 / (Site 0 * Site 0 * Site 0 * Site 0) + Num (2#1) / (Site 0 * Site 0 * Site 0)];
    [Num (-6#1) * Var 21 / (Site 0 * Site 0 * Site 0 * Site 0) + Num (2#1) / (Site 0 * Site 0 * Site 0) + Num (2#1) / (Site 0 * Site 0 * Site 0);
    Num (-6#1) * Var 21 / (Site 0 * Site 0 * Site 0 * Site 0) + Num (2#1) / (Site 0 * Site 0 * Site 0) + Num (2#1) / (Site 0 * Site 0 * Site 0) + Num (2#1) / (Site 0 * Site 0 * Site 0);
    Num (-6#1) * Var 21 / (Site 0 * Site 0 * Site 0 * Site 0) + Num (2#1) / (Site 0 * Site 0 * Site 0) + Num (2#1) / (Site 0 * Site 0 * Site 0)];
    [Num (-6#1) * Var 21 / (Site 0 * Site 0 * Site 0 * Site 0) + Num (2#1) / (Site 0 * Site 0 * Site 0);
    Num (-6#1) * Var 21 / (Site 0 * Site 0 * Site 0 * Site 0) + Num (2#1) / (Site 0 * Site 0 * Site 0) + Num (2#1) / (Site 0 * Site 0 * Site 0);
    Num (-6#1) * Var 21 / (Site 0 * Site 0 * Site 0 * Site 0) + Num (2#1) / (Site 0 * Site 0 * Site 0)]];
    [[Num (-6#1) * Var 21 / (Site 0 * Site 0 * Site 0 * Site 0);
    Num (-6#1) * Var 21 / (Site 0 * Site 0 * Site 0 * Site 0) + Num (2#1) / (Site 0 * Site 0 * Site 0);
    Num (-6#1) * Var 21 / (Site 0 * Site 0 * Site 0 * Site 0)];
    [Num (-6#1) * Var 21 / (Site 0 * Site 0 * Site 0 * Site 0) + Num (2#1) / (Site 0 * Site 0 * Site 0);
    Num (-6#1) * Var 21 / (Site 0 * Site 0 * Site 0 * Site 0) + Num (2#1) / (Site 0 * Site 0 * Site 0) + Num (2#1) / (Site 0 * Site 0 * Site 0);
    Num (-6#1) * Var 21 / (Site 0 * Site 0 * Site 0 * Site 0) + Num (2#1) / (Site 0 * Site 0 * Site 0)];
    [Num (-6#1) * Var 21 / (Site 0 * Site 0 * Site 0 * Site 0);
    Num (-6#1) * Var 21 / (Site 0 * Site 0 * Site 0 * Site 0) + Num (2#1) / (Site 0 * Site 0 * Site 0);
    Num (-6#1) * Var 21 / (Site 0 * Site 0 * Site 0 * Site 0)]]]].
(** sources/garnet.c 349-503: conGrn, inpMask THIRD, output x[i] from r *)
Definition Grn_con_xr :=
  [Var 2;
    Var 3;
    Num (1#1) - Var 2 - Var 3].
(** sources/garnet.c 349-503: conGrn, inpMask THIRD, output dr[i][j] *)
Definition Grn_con_dr :=
  [[Num (1#1);
    Num (0#1)];
    [Num (0#1);
    Num (1#1)];
    [Num (-1#1);
    Num (-1#1)]].
(** sources/garnet.c 349-503: x[i] from r is set to zero when it is smaller in absolute value than this number *)
Definition Grn_con_snap : list (nat * Q) := [].
Definition conGrn : conv :=
  mkConv "garnet" 3 2 Grn_con_r Grn_con_x Grn_con_dm Grn_con_d2m Grn_con_d3m Grn_con_xr Grn_con_dr Grn_con_snap.

(** sources/biotite.c 206-357: conBio, inpMask SECOND, output r[i] from m *)
Definition Bio_con_r :=
  [Var 20 / Site 0].
(** sources/biotite.c 206-357: conBio, inpMask SECOND, output x[i] from m *)
Definition Bio_con_x :=
  [Var 20 / Site 0;
    Var 21 / Site 0].
(** sources/biotite.c 206-357: conBio, inpMask SECOND, output dm[i][j] *)
Definition Bio_con_dm :=
  [[(Num (1#1) - Var 20 / Site 0) / Site 0;
    (- Var 20) / (Site 0 * Site 0)]].
(** sources/biotite.c 206-357: conBio, inpMask SECOND, output d2m[i][j][k] *)
Definition Bio_con_d2m :=
  [[[Num (2#1) * Var 20 / (Site 0 * Site 0 * Site 0) - Num (1#1) / (Site 0 * Site 0) - Num (1#1) / (Site 0 * Site 0);
    Num (2#1) * Var 20 / (Site 0 * Site 0 * Site 0) - Num (1#1) / (Site 0 * Site 0)];
    [Num (2#1) * Var 20 / (Site 0 * Site 0 * Site 0) - Num (1#1) / (Site 0 * Site 0);
    Num (2#1) * Var 20 / (Site 0 * Site 0 * Site 0)]]].
(** sources/biotite.c 206-357: conBio, inpMask SECOND, output d3m[i][j][k][l] *)
Definition Bio_con_d3m :=
  [[[[Num (-6#1) * Var 20 / (Site 0 * Site 0 * Site 0 * Site 0) + Num (2#1) / (Site 0 * Site 0 * Site 0) + Num (2#1) / (Site 0 * Site 0 * Site 0) + Num (2#1) / (Site 0 * Site 0 * Site 0);
    Num (-6#1) * Var 20 / (Site 0 * Site 0 * Site 0 * Site 0) + Num (2#1) / (Site 0 * Site 0 * Site 0) + Num (2#1) / (Site 0 * Site 0 * Site 0)];
    [Num (-6#1) * Var 20 / (Site 0 * Site 0 * Site 0 * Site 0) + Num (2#1) / (Site 0 * Site 0 * Site 0) + Num (2#1) / (Site 0 * Site 0 * Site 0);
    Num (-6#1) * Var 20 / (Site 0 * Site 0 * Site 0 * Site 0) + Num (2#1) / (Site 0 * Site 0 * Site 0)]];
    [[Num (-6#1) * Var 20 / (Site 0 * Site 0 * Site 0 * Site 0) + Num (2#1) / (Site 0 * Site 0 * Site 0) + Num (2#1) / (Site 0 * Site 0 * Site 0);
    Num (-6#1) * Var 20 / (Site 0 * Site 0 * Site 0 * Site 0) + Num (2#1) / (Site 0 * Site 0 * Site 0)];
    [Num (-6#1) * Var 20 / (Site 0 * Site 0 * Site 0 * Site 0) + Num (2#1) / (Site 0 * Site 0 * Site 0);
    Num (-6#1) * Var 20 / (Site 0 * Site 0 * Site 0 * Site 0)]]]].
(** sources/biotite.c 206-357: conBio, inpMask THIRD, output x[i] from r *)
Definition Bio_con_xr :=
  [Var 2;
    Num (1#1) - Var 2].
(** sources/biotite.c 206-357: conBio, inpMask THIRD, output dr[i][j] *)
Definition Bio_con_dr :=
  [[Num (1#1)];
    [Num (-1#1)]].
(** sources/biotite.c 206-357: x[i] from r is set to zero when it is smaller in absolute value than this number *)
Definition Bio_con_snap : list (nat * Q) := [].
Definition conBio : conv :=
  mkConv "biotite" 2 1 Bio_con_r Bio_con_x Bio_con_dm Bio_con_d2m Bio_con_d3m Bio_con_xr Bio_con_dr Bio_con_snap.

(** sources/hornblende.c 206-382: conHrn, inpMask SECOND, output r[i] from m *)
Definition Hrn_con_r :=
  [Var 21 / Site 0;
    Var 22 / Site 0].
(** sources/hornblende.c 206-382: conHrn, inpMask SECOND, output x[i] from m *)
Definition Hrn_con_x :=
  [Var 20 / Site 0;
    Var 21 / Site 0;
    Var 22 / Site 0].
(** sources/hornblende.c 206-382: conHrn, inpMask SECOND, output dm[i][j] *)
Definition Hrn_con_dm :=
  [[(- Var 21) / (Site 0 * Site 0);
    (Num (1#1) - Var 21 / Site 0) / Site 0;
    (- Var 21) / (Site 0 * Site 0)];
    [(- Var 22) / (Site 0 * Site 0);
    (- Var 22) / (Site 0 * Site 0);
    (Num (1#1) - Var 22 / Site 0) / Site 0]].
(** sources/hornblende.c 206-382: conHrn, inpMask SECOND, output d2m[i][j][k] *)
Definition Hrn_con_d2m :=
  [[[Num (2#1) * Var 21 / (Site 0 * Site 0 * Site 0);
    Num (2#1) * Var 21 / (Site 0 * Site 0 * Site 0) - Num (1#1) / (Site 0 * Site 0);
    Num (2#1) * Var 21 / (Site 0 * Site 0 * Site 0)];
    [Num (2#1) * Var 21 / (Site 0 * Site 0 * Site 0) - Num (1#1) / (Site 0 * Site 0);
    Num (2#1) * Var 21 / (Site 0 * Site 0 * Site 0) - Num (1#1) / (Site 0 * Site 0) - Num (1#1) / (Site 0 * Site 0);
    Num (2#1) * Var 21 / (Site 0 * Site 0 * Site 0) - Num (1#1) / (Site 0 * Site 0)];
    [Num (2#1) * Var 21 / (Site 0 * Site 0 * Site 0);
    Num (2#1) * Var 21 / (Site 0 * Site 0 * Site 0) - Num (1#1) / (Site 0 * Site 0);
    Num (2#1) * Var 21 / (Site 0 * Site 0 * Site 0)]];
    [[Num (2#1) * Var 22 / (Site 0 * Site 0 * Site 0);
    Num (2#1) * Var 22 / (Site 0 * Site 0 * Site 0);
    Num (2#1) * Var 22 / (Site 0 * Site 0 * Site 0) - Num (1#1) / (Site 0 * Site 0)];
    [Num (2#1) * Var 22 / (Site 0 * Site 0 * Site 0);
    Num (2#1) * Var 22 / (Site 0 * Site 0 * Site 0);
    Num (2#1) * Var 22 / (Site 0 * Site 0 * Site 0) - Num (1#1) / (Site 0 * Site 0)];
    [Num (2#1) * Var 22 / (Site 0 * Site 0 * Site 0) - Num (1#1) / (Site 0 * Site 0);
    Num (2#1) * Var 22 / (Site 0 * Site 0 * Site 0) - Num (1#1) / (Site 0 * Site 0);
    Num (2#1) * Var 22 / (Site 0 * Site 0 * Site 0) - Num (1#1) / (Site 0 * Site 0) - Num (1#1) / (Site 0 * Site 0)]]].
(** sources/hornblende.c 206-382: conHrn, inpMask SECOND, output d3m[i][j][k][l] *)
Definition Hrn_con_d3m :=
  [[[[Num (-6#1) * Var 21 / (Site 0 * Site 0 * Site 0 * Site 0);
    Num (-6#1) * Var 21 / (Site 0 * Site 0 * Site 0 * Site 0) + Num (2#1) / (Site 0 * Site 0 * Site 0);
    Num (-6#1) * Var 21 / (Site 0 * Site 0 * Site 0 * Site 0)];
    [Num (-6#1) * Var 21 / (Site 0 * Site 0 * Site 0 * Site 0) + Num (2#1) / (Site 0 * Site 0 * Site 0);
    Num (-6#1) * Var 21 / (Site 0 * Site 0 * Site 0 * Site 0) + Num (2#1) / (Site 0 * Site 0 * Site 0) + Num (2#1) / (Site 0 * Site 0 * Site 0);
    Num (-6#1) * Var 21 / (Site 0 * Site 0 * Site 0 * Site 0) + Num (2#1) / (Site 0 * Site 0 * Site 0)];
    [Num (-6#1) * Var 21 / (Site 0 * Site 0 * Site 0 * Site 0);
    Num (-6#1) * Var 21 / (Site 0 * Site 0 * Site 0 * Site 0) + Num (2#1) / (Site 0 * Site 0 * Site 0);
    Num (-6#1) * Var 21 / (Site 0 * Site 0 * Site 0 * Site 0)]];
    [[Num (-6#1) * Var 21 / (Site 0 * Site 0 * Site 0 * Site 0) + Num (2#1) / (Site 0 * Site 0 * Site 0);
    Num (-6#1) * Var 21 / (Site 0 * Site 0 * Site 0 * Site 0) + Num (2#1) / (Site 0 * Site 0 * Site 0) + Num (2#1) / (Site 0 * Site 0 * Site 0);
    Num (-6#1) * Var 21 / (Site 0 * Site 0 * Site 0 * Site 0) + Num (2#1) / (Site 0 * Site 0 * Site 0)];
    [Num (-6#1) * Var 21 / (Site 0 * Site 0 * Site 0 * Site 0) + Num (2#1) / (Site 0 * Site 0 * Site 0) + Num (2#1) / (Site 0 * Site 0 * Site 0);
    Num (-6#1) * Var 21 / (Site 0 * Site 0 * Site 0 * Site 0) + Num (2#1) / (Site 0 * Site 0 * Site 0) + Num (2#1) / (Site 0 * Site 0 * Site 0) + Num (2#1) / (Site 0 * Site 0 * Site 0);
    Num (-6#1) * Var 21 / (Site 0 * Site 0 * Site 0 * Site 0) + Num (2#1) / (Site 0 * Site 0 * Site 0) + Num (2#1) / (Site 0 * Site 0 * Site 0)];
    [Num (-6#1) * Var 21 / (Site 0 * Site 0 * Site 0 * Site 0) + Num (2#1) / (Site 0 * Site 0 * Site 0);
    Num (-6#1) * Var 21 / (Site 0 * Site 0 * Site 0 * Site 0) + Num (2#1) / (Site 0 * Site 0 * Site 0) + Num (2#1) / (Site 0 * Site 0 * Site 0);
    Num (-6#1) * Var 21 / (Site 0 * Site 0 * Site 0 * Site 0) + Num (2#1) / (Site 0 * Site 0 * Site 0)]];
    [[Num (-6#1) * Var 21 / (Site 0 * Site 0 * Site 0 * Site 0);
    Num (-6#1) * Var 21 / (Site 0 * Site 0 * Site 0 * Site 0) + Num (2#1) / (Site 0 * Site 0 * Site 0);
    Num (-6#1) * Var 21 / (Site 0 * Site 0 * Site 0 * Site 0)];
    [Num (-6#1) * Var 21 / (Site 0 * Site 0 * Site 0 * Site 0) + Num (2#1) / (Site 0 * Site 0 * Site 0);
    Num (-6#1) * Var 21 / (Site 0 * Site 0 * Site 0 * Site 0) + Num (2#1) / (Site 0 * Site 0 * Site 0) + Num (2#1) / (Site 0 * Site 0 * Site 0);
    Num (-6#1) * Var 21 / (Site 0 * Site 0 * Site 0 * Site 0) + Num (2#1) / (Site 0 * Site 0 * Site 0)];
    [Num (-6#1) * Var 21 / (Site 0 * Site 0 * Site 0 * Site 0);
    Num (-6#1) * Var 21 / (Site 0 * Site 0 * Site 0 * Site 0) + Num (2#1) / (Site 0 * Site 0 * Site 0);
    Num (-6#1) * Var 21 / (Site 0 * Site 0 * Site 0 * Site 0)]]];
    [[[Num (-6#1) * Var 22 / (Site 0 * Site 0 * Site 0 * Site 0);
    Num (-6#1) * Var 22 / (Site 0 * Site 0 * Site 0 * Site 0);
    Num (-6#1) * Var 22 / (Site 0 * Site 0 * Site 0 * Site 0) + Num (2#1) / (Site 0 * Site 0 * Site 0)];
    [Num (-6#1) * Var 22 / (Site 0 * Site 0 * Site 0 * Site 0);
    Num (-6#1) * Var 22 / (Site 0 * Site 0 * Site 0 * Site 0);
    Num (-6#1) * Var 22 / (Site 0 * Site 0 * Site 0 * Site 0) + Num (2#1) / (Site 0 * Site 0 * Site 0)];
    [Num (-6#1) * Var 22 / (Site 0 * Site 0 * Site 0 * Site 0) + Num (2#1) / (Site 0 * Site 0 * Site 0);
    Num (-6#1) * Var 22 / (Site 0 * Site 0 * Site 0 * Site 0) + Num (2#1) / (Site 0 * Site 0 * Site 0);
    Num (-6#1) * Var 22 / (Site 0 * Site 0 * Site 0 * Site 0) + Num (2#1) / (Site 0 * Site 0 * Site 0) + Num (2#1) / (Site 0 * Site 0 * Site 0)]];
    [[Num (-6#1) * Var 22 / (Site 0 * Site 0 * Site 0 * Site 0);
    Num (-6#1) * Var 22 / (Site 0 * Site 0 * Site 0 * Site 0);
    Num (-6#1) * Var 22 / (Site 0 * Site 0 * Site 0 * Site 0) + Num (2#1) / (Site 0 * Site 0 * Site 0)];
    [Num (-6#1) * Var 22 / (Site 0 * Site 0 * Site 0 * Site 0);
    Num (-6#1) * Var 22 / (Site 0 * Site 0 * Site 0 * Site 0);
    Num (-6#1) * Var 22 / (Site 0 * Site 0 * Site 0 * Site 0) + Num (2#1) / (Site 0 * Site 0 * Site 0)];
    [Num (-6#1) * Var 22 / (Site 0 * Site 0 * Site 0 * Site 0) + Num (2#1) / (Site 0 * Site 0 * Site 0);
    Num (-6#1) * Var 22 / (Site 0 * Site 0 * Site 0 * Site 0) + Num (2#1) / (Site 0 * Site 0 * Site 0);
    Num (-6#1) * Var 22 / (Site 0 * Site 0 * Site 0 * Site 0) + Num (2#1) / (Site 0 * Site 0 * Site 0) + Num (2#1) / (Site 0 * Site 0 * Site 0)]];
    [[Num (-6#1) * Var 22 / (Site 0 * Site 0 * Site 0 * Site 0) + Num (2#1) / (Site 0 * Site 0 * Site 0);
    Num (-6#1) * Var 22 / (Site 0 * Site 0 * Site 0 * Site 0) + Num (2#1) / (Site 0 * Site 0 * Site 0);
    Num (-6#1) * Var 22 / (Site 0 * Site 0 * Site 0 * Site 0) + Num (2#1) / (Site 0 * Site 0 * Site 0) + Num (2#1) / (Site 0 * Site 0 * Site 0)];
    [Num (-6#1) * Var 22 / (Site 0 * Site 0 * Site 0 * Site 0) + Num (2#1) / (Site 0 * Site 0 * Site 0);
    Num (-6#1) * Var 22 / (Site 0 * Site 0 * Site 0 * Site 0) + Num (2#1) / (Site 0 * Site 0 * Site 0);
    Num (-6#1) * Var 22 / (Site 0 * Site 0 * Site 0 * Site 0) + Num (2#1) / (Site 0 * Site 0 * Site 0) + Num (2#1) / (Site 0 * Site 0 * Site 0)];
    [Num (-6#1) * Var 22 / (Site 0 * Site 0 * Site 0 * Site 0) + Num (2#1) / (Site 0 * Site 0 * Site 0) + Num (2#1) / (Site 0 * Site 0 * Site 0);
    Num (-6#1) * Var 22 / (Site 0 * Site 0 * Site 0 * Site 0) + Num (2#1) / (Site 0 * Site 0 * Site 0) + Num (2#1) / (Site 0 * Site 0 * Site 0);
    Num (-6#1) * Var 22 / (Site 0 * Site 0 * Site 0 * Site 0) + Num (2#1) / (Site 0 * Site 0 * Site 0) + Num (2#1) / (Site 0 * Site 0 * Site 0) + Num (2#1) / (Site 0 * Site 0 * Site 0)]]]].
(** sources/hornblende.c 206-382: conHrn, inpMask THIRD, output x[i] from r *)
Definition Hrn_con_xr :=
  [Num (1#1) - Var 2 - Var 3;
    Var 2;
    Var 3].
(** sources/hornblende.c 206-382: conHrn, inpMask THIRD, output dr[i][j] *)
Definition Hrn_con_dr :=
  [[Num (-1#1);
    Num (-1#1)];
    [Num (1#1);
    Num (0#1)];
    [Num (0#1);
    Num (1#1)]].
(** sources/hornblende.c 206-382: x[i] from r is set to zero when it is smaller in absolute value than this number *)
Definition Hrn_con_snap : list (nat * Q) := [].
Definition conHrn : conv :=
  mkConv "hornblende" 3 2 Hrn_con_r Hrn_con_x Hrn_con_dm Hrn_con_d2m Hrn_con_d3m Hrn_con_xr Hrn_con_dr Hrn_con_snap.

(** sources/leucite.c 239-394: conLeu, inpMask SECOND, output r[i] from m *)
Definition Leu_con_r :=
  [Var 20 / Site 0;
    Var 21 / Site 0].
(** sources/leucite.c 239-394: conLeu, inpMask SECOND, output x[i] from m *)
Definition Leu_con_x :=
  [Var 20 / Site 0;
    Var 21 / Site 0;
    Var 22 / Site 0].
(** sources/leucite.c 239-394: conLeu, inpMask SECOND, output dm[i][j] *)
Definition Leu_con_dm :=
  [[(Num (1#1) - Var 20 / Site 0) / Site 0;
    (- Var 20) / (Site 0 * Site 0);
    (- Var 20) / (Site 0 * Site 0)];
    [(- Var 21) / (Site 0 * Site 0);
    (Num (1#1) - Var 21 / Site 0) / Site 0;
    (- Var 21) / (Site 0 * Site 0)]].
(** sources/leucite.c 239-394: conLeu, inpMask SECOND, output d2m[i][j][k] *)
Definition Leu_con_d2m :=
  [[[Num (2#1) * Var 20 / (Site 0 * Site 0 * Site 0) - Num (1#1) / (Site 0 * Site 0) - Num (1#1) / (Site 0 * Site 0);
    Num (2#1) * Var 20 / (Site 0 * Site 0 * Site 0) - Num (1#1) / (Site 0 * Site 0);
    Num (2#1) * Var 20 / (Site 0 * Site 0 * Site 0) - Num (1#1) / (Site 0 * Site 0)];
    [Num (2#1) * Var 20 / (Site 0 * Site 0 * Site 0) - Num (1#1) / (Site 0 * Site 0);
    Num (2#1) * Var 20 / (Site 0 * Site 0 * Site 0);
    Num (2#1) * Var 20 / (Site 0 * Site 0 * Site 0)];
    [Num (2#1) * Var 20 / (Site 0 * Site 0 * Site 0) - Num (1#1) / (Site 0 * Site 0);
    Num (2#1) * Var 20 / (Site 0 * Site 0 * Site 0);
    Num (2#1) * Var 20 / (Site 0 * Site 0 * Site 0)]];
    [[Num (2#1) * Var 21 / (Site 0 * Site 0 * Site 0);
    Num (2#1) * Var 21 / (Site 0 * Site 0 * Site 0) - Num (1#1) / (Site 0 * Site 0);
    Num (2#1) * Var 21 / (Site 0 * Site 0 * Site 0)];
    [Num (2#1) * Var 21 / (Site 0 * Site 0 * Site 0) - Num (1#1) / (Site 0 * Site 0);
    Num (2#1) * Var 21 / (Site 0 * Site 0 * Site 0) - Num (1#1) / (Site 0 * Site 0) - Num (1#1) / (Site 0 * Site 0);
    Num (2#1) * Var 21 / (Site 0 * Site 0 * Site 0) - Num (1#1) / (Site 0 * Site 0)];
    [Num (2#1) * Var 21 / (Site 0 * Site 0 * Site 0);
    Num (2#1) * Var 21 / (Site 0 * Site 0 * Site 0) - Num (1#1) / (Site 0 * Site 0);
    Num (2#1) * Var 21 / (Site 0 * Site 0 * Site 0)]]].
(** sources/leucite.c 239-394: conLeu, inpMask SECOND, output d3m[i][j][k][l] *)
Definition Leu_con_d3m :=
  [[[[Num (-6#1) * Var 20 / (Site 0 * Site 0 * Site 0 * Site 0) + Num (2#1) / (Site 0 * Site 0 * Site 0) + Num (2#1) / (Site 0 * Site 0 * Site 0) + Num (2#1) / (Site 0 * Site 0 * Site 0);
    Num (-6#1) * Var 20 / (Site 0 * Site 0 * Site 0 * Site 0) + Num (2#1) / (Site 0 * Site 0 * Site 0) + Num (2#1) / (Site 0 * Site 0 * Site 0);
    Num (-6#1) * Var 20 / (Site 0 * Site 0 * Site 0 * Site 0) + Num (2#1) / (Site 0 * Site 0 * Site 0) + Num (2#1) / (Site 0 * Site 0 * Site 0)];
    [Num (-6#1) * Var 20 / (Site 0 * Site 0 * Site 0 * Site 0) + Num (2#1) / (Site 0 * Site 0 * Site 0) + Num (2#1) / (Site 0 * Site 0 * Site 0);
    Num (-6#1) * Var 20 / (Site 0 * Site 0 * Site 0 * Site 0) + Num (2#1) / (Site 0 * Site 0 * Site 0);
    Num (-6#1) * Var 20 / (Site 0 * Site 0 * Site 0 * Site 0) + Num (2#1) / (Site 0 * Site 0 * Site 0)];
    [Num (-6#1) * Var 20 / (Site 0 * Site 0 * Site 0 * Site 0) + Num (2#1) / (Site 0 * Site 0 * Site 0) + Num (2#1) / (Site 0 * Site 0 * Site 0);
    Num (-6#1) * Var 20 / (Site 0 * Site 0 * Site 0 * Site 0) + Num (2#1) / (Site 0 * Site 0 * Site 0);
    Num (-6#1) * Var 20 / (Site 0 * Site 0 * Site 0 * Site 0) + Num (2#1) / (Site 0 * Site 0 * Site 0)]];
    [[Num (-6#1) * Var 20 / (Site 0 * Site 0 * Site 0 * Site 0) + Num (2#1) / (Site 0 * Site 0 * Site 0) + Num (2#1) / (Site 0 * Site 0 * Site 0);
    Num (-6#1) * Var 20 / (Site 0 * Site 0 * Site 0 * Site 0) + Num (2#1) / (Site 0 * Site 0 * Site 0);
    Num (-6#1) * Var 20 / (Site 0 * Site 0 * Site 0 * Site 0) + Num (2#1) / (Site 0 * Site 0 * Site 0)];
    [Num (-6#1) * Var 20 / (Site 0 * Site 0 * Site 0 * Site 0) + Num (2#1) / (Site 0 * Site 0 * Site 0);
    Num (-6#1) * Var 20 / (Site 0 * Site 0 * Site 0 * Site 0);
    Num (-6#1) * Var 20 / (Site 0 * Site 0 * Site 0 * Site 0)];
    [Num (-6#1) * Var 20 / (Site 0 * Site 0 * Site 0 * Site 0) + Num (2#1) / (Site 0 * Site 0 * Site 0);
    Num (-6#1) * Var 20 / (Site 0 * Site 0 * Site 0 * Site 0);
    Num (-6#1) * Var 20 / (Site 0 * Site 0 * Site 0 * Site 0)]];
    [[Num (-6#1) * Var 20 / (Site 0 * Site 0 * Site 0 * Site 0) + Num (2#1) / (Site 0 * Site 0 * Site 0) + Num (2#1) / (Site 0 * Site 0 * Site 0);
    Num (-6#1) * Var 20 / (Site 0 * Site 0 * Site 0 * Site 0) + Num (2#1) / (Site 0 * Site 0 * Site 0);
    Num (-6#1) * Var 20 / (Site 0 * Site 0 * Site 0 * Site 0) + Num (2#1) / (Site 0 * Site 0 * Site 0)];
    [Num (-6#1) * Var 20 / (Site 0 * Site 0 * Site 0 * Site 0) + Num (2#1) / (Site 0 * Site 0 * Site 0);
    Num (-6#1) * Var 20 / (Site 0 * Site 0 * Site 0 * Site 0);
    Num (-6#1) * Var 20 / (Site 0 * Site 0 * Site 0 * Site 0)];
    [Num (-6#1) * Var 20 / (Site 0 * Site 0 * Site 0 * Site 0) + Num (2#1) / (Site 0 * Site 0 * Site 0);
    Num (-6#1) * Var 20 / (Site 0 * Site 0 * Site 0 * Site 0);
    Num (-6#1) * Var 20 / (Site 0 * Site 0 * Site 0 * Site 0)]]];
    [[[Num (-6#1) * Var 21 / (Site 0 * Site 0 * Site 0 * Site 0);
    Num (-6#1) * Var 21 / (Site 0 * Site 0 * Site 0 * Site 0) + Num (2#1) / (Site 0 * Site 0 * Site 0);
    Num (-6#1) * Var 21 / (Site 0 * Site 0 * Site 0 * Site 0)];
    [Num (-6#1) * Var 21 / (Site 0 * Site 0 * Site 0 * Site 0) + Num (2#1) / (Site 0 * Site 0 * Site 0);
    Num (-6#1) * Var 21 / (Site 0 * Site 0 * Site 0 * Site 0) + Num (2#1) / (Site 0 * Site 0 * Site 0) + Num (2#1) / (Site 0 * Site 0 * Site 0);
    Num (-6#1) * Var 21 / (Site 0 * Site 0 * Site 0 * Site 0) + Num (2#1) / (Site 0 * Site 0 * Site 0)];
    [Num (-6#1) * Var 21 / (Site 0 * Site 0 * Site 0 * Site 0);
    Num (-6#1) * Var 21 / (Site 0 * Site 0 * Site 0 * Site 0) + Num (2#1) / (Site 0 * Site 0 * Site 0);
    Num (-6#1) * Var 21 / (Site 0 * Site 0 * Site 0 * Site 0)]];
    [[Num (-6#1) * Var 21 / (Site 0 * Site 0 * Site 0 * Site 0) + Num (2#1) / (Site 0 * Site 0 * Site 0);
    Num (-6#1) * Var 21 / (Site 0 * Site 0 * Site 0 * Site 0) + Num (2#1) / (Site 0 * Site 0 * Site 0) + Num (2#1) / (Site 0 * Site 0 * Site 0);
    Num (-6#1) * Var 21 / (Site 0 * Site 0 * Site 0 * Site 0) + Num (2#1) / (Site 0 * Site 0 * Site 0)];
    [Num (-6#1) * Var 21 / (Site 0 * Site 0 * Site 0 * Site 0) + Num (2#1) / (Site 0 * Site 0 * Site 0) + Num (2#1) / (Site 0 * Site 0 * Site 0);
    Num (-6#1) * Var 21 / (Site 0 * Site 0 * Site 0 * Site 0) + Num (2#1) / (Site 0 * Site 0 * Site 0) + Num (2#1) / (Site 0 * Site 0 * Site 0) + Num (2#1) / (Site 0 * Site 0 * Site 0);
    Num (-6#1) * Var 21 / (Site 0 * Site 0 * Site 0 * Site 0) + Num (2#1) / (Site 0 * Site 0 * Site 0) + Num (2#1) / (Site 0 * Site 0 * Site 0)];
    [Num (-6#1) * Var 21 / (Site 0 * Site 0 * Site 0 * Site 0) + Num (2#1) / (Site 0 * Site 0 * Site 0);
    Num (-6#1) * Var 21 / (Site 0 * Site 0 * Site 0 * Site 0) + Num (2#1) / (Site 0 * Site 0 * Site 0) + Num (2#1) / (Site 0 * Site 0 * Site 0);
    Num (-6#1) * Var 21 / (Site 0 * Site 0 * Site 0 * Site 0) + Num (2#1) / (Site 0 * Site 0 * Site 0)]];
    [[Num (-6#1) * Var 21 / (Site 0 * Site 0 * Site 0 * Site 0);
    Num (-6#1) * Var 21 / (Site 0 * Site 0 * Site 0 * Site 0) + Num (2#1) / (Site 0 * Site 0 * Site 0);
    Num (-6#1) * Var 21 / (Site 0 * Site 0 * Site 0 * Site 0)];
    [Num (-6#1) * Var 21 / (Site 0 * Site 0 * Site 0 * Site 0) + Num (2#1) / (Site 0 * Site 0 * Site 0);
    Num (-6#1) * Var 21 / (Site 0 * Site 0 * Site 0 * Site 0) + Num (2#1) / (Site 0 * Site 0 * Site 0) + Num (2#1) / (Site 0 * Site 0 * Site 0);
    Num (-6#1) * Var 21 / (Site 0 * Site 0 * Site 0 * Site 0) + Num (2#1) / (Site 0 * Site 0 * Site 0)];
    [Num (-6#1) * Var 21 / (Site 0 * Site 0 * Site 0 * Site 0);
    Num (-6#1) * Var 21 / (Site 0 * Site 0 * Site 0 * Site 0) + Num (2#1) / (Site 0 * Site 0 * Site 0);
    Num (-6#1) * Var 21 / (Site 0 * Site 0 * Site 0 * Site 0)]]]].
(** sources/leucite.c 239-394: conLeu, inpMask THIRD, output x[i] from r *)
Definition Leu_con_xr :=
  [Var 2;
    Var 3;
    Num (1#1) - Var 2 - Var 3].
(** sources/leucite.c 239-394: conLeu, inpMask THIRD, output dr[i][j] *)
Definition Leu_con_dr :=
  [[Num (1#1);
    Num (0#1)];
    [Num (0#1);
    Num (1#1)];
    [Num (-1#1);
    Num (-1#1)]].
(** sources/leucite.c 239-394: x[i] from r is set to zero when it is smaller in absolute value than this number *)
Definition Leu_con_snap : list (nat * Q) := [].
Definition conLeu : conv :=
  mkConv "leucite" 3 2 Leu_con_r Leu_con_x Leu_con_dm Leu_con_d2m Leu_con_d3m Leu_con_xr Leu_con_dr Leu_con_snap.

(** sources/majorite.c 390-596: conMaj, inpMask SECOND, output r[i] from m *)
Definition Maj_con_r :=
  [Var 21 / Site 0;
    Var 22 / Site 0;
    Var 23 / Site 0].
(** sources/majorite.c 390-596: conMaj, inpMask SECOND, output x[i] from m *)
Definition Maj_con_x :=
  [Var 20 / Site 0;
    Var 21 / Site 0;
    Var 22 / Site 0;
    Var 23 / Site 0].
(** sources/majorite.c 390-596: conMaj, inpMask SECOND, output dm[i][j] *)
Definition Maj_con_dm :=
  [[(- Var 21) / (Site 0 * Site 0);
    (Num (1#1) - Var 21 / Site 0) / Site 0;
    (- Var 21) / (Site 0 * Site 0);
    (- Var 21) / (Site 0 * Site 0)];
    [(- Var 22) / (Site 0 * Site 0);
    (- Var 22) / (Site 0 * Site 0);
    (Num (1#1) - Var 22 / Site 0) / Site 0;
    (- Var 22) / (Site 0 * Site 0)];
    [(- Var 23) / (Site 0 * Site 0);
    (- Var 23) / (Site 0 * Site 0);
    (- Var 23) / (Site 0 * Site 0);
    (Num (1#1) - Var 23 / Site 0) / Site 0]].
(** sources/majorite.c 390-596: conMaj, inpMask SECOND, output d2m[i][j][k] *)
Definition Maj_con_d2m :=
  [[[Num (2#1) * Var 21 / (Site 0 * Site 0 * Site 0);
    Num (2#1) * Var 21 / (Site 0 * Site 0 * Site 0) - Num (1#1) / (Site 0 * Site 0);
    Num (2#1) * Var 21 / (Site 0 * Site 0 * Site 0);
    Num (2#1) * Var 21 / (Site 0 * Site 0 * Site 0)];
    [Num (2#1) * Var 21 / (Site 0 * Site 0 * Site 0) - Num (1#1) / (Site 0 * Site 0);
    Num (2#1) * Var 21 / (Site 0 * Site 0 * Site 0) - Num (1#1) / (Site 0 * Site 0) - Num (1#1) / (Site 0 * Site 0);
    Num (2#1) * Var 21 / (Site 0 * Site 0 * Site 0) - Num (1#1) / (Site 0 * Site 0);
    Num (2#1) * Var 21 / (Site 0 * Site 0 * Site 0) - Num (1#1) / (Site 0 * Site 0)];
    [Num (2#1) * Var 21 / (Site 0 * Site 0 * Site 0);
    Num (2#1) * Var 21 / (Site 0 * Site 0 * Site 0) - Num (1#1) / (Site 0 * Site 0);
    Num (2#1) * Var 21 / (Site 0 * Site 0 * Site 0);
    Num (2#1) * Var 21 / (Site 0 * Site 0 * Site 0)];
    [Num (2#1) * Var 21 / (Site 0 * Site 0 * Site 0);
    Num (2#1) * Var 21 / (Site 0 * Site 0 * Site 0) - Num (1#1) / (Site 0 * Site 0);
    Num (2#1) * Var 21 / (Site 0 * Site 0 * Site 0);
    Num (2#1) * Var 21 / (Site 0 * Site 0 * Site 0)]];
    [[Num (2#1) * Var 22 / (Site 0 * Site 0 * Site 0);
    Num (2#1) * Var 22 / (Site 0 * Site 0 * Site 0);
    Num (2#1) * Var 22 / (Site 0 * Site 0 * Site 0) - Num (1#1) / (Site 0 * Site 0);
    Num (2#1) * Var 22 / (Site 0 * Site 0 * Site 0)];
    [Num (2#1) * Var 22 / (Site 0 * Site 0 * Site 0);
    Num (2#1) * Var 22 / (Site 0 * Site 0 * Site 0);
    Num (2#1) * Var 22 / (Site 0 * Site 0 * Site 0) - Num (1#1) / (Site 0 * Site 0);
    Num (2#1) * Var 22 / (Site 0 * Site 0 * Site 0)];
    [Num (2#1) * Var 22 / (Site 0 * Site 0 * Site 0) - Num (1#1) / (Site 0 * Site 0);
    Num (2#1) * Var 22 / (Site 0 * Site 0 * Site 0) - Num (1#1) / (Site 0 * Site 0);
    Num (2#1) * Var 22 / (Site 0 * Site 0 * Site 0) - Num (1#1) / (Site 0 * Site 0) - Num (1#1) / (Site 0 * Site 0);
    Num (2#1) * Var 22 / (Site 0 * Site 0 * Site 0) - Num (1#1) / (Site 0 * Site 0)];
    [Num (2#1) * Var 22 / (Site 0 * Site 0 * Site 0);
    Num (2#1) * Var 22 / (Site 0 * Site 0 * Site 0);
    Num (2#1) * Var 22 / (Site 0 * Site 0 * Site 0) - Num (1#1) / (Site 0 * Site 0);
    Num (2#1) * Var 22 / (Site 0 * Site 0 * Site 0)]];
    [[Num (2#1) * Var 23 / (Site 0 * Site 0 * Site 0);
    Num (2#1) * Var 23 / (Site 0 * Site 0 * Site 0);
    Num (2#1) * Var 23 / (Site 0 * Site 0 * Site 0);
    Num (2#1) * Var 23 / (Site 0 * Site 0 * Site 0) - Num (1#1) / (Site 0 * Site 0)];
    [Num (2#1) * Var 23 / (Site 0 * Site 0 * Site 0);
    Num (2#1) * Var 23 / (Site 0 * Site 0 * Site 0);
    Num (2#1) * Var 23 / (Site 0 * Site 0 * Site 0);
    Num (2#1) * Var 23 / (Site 0 * Site 0 * Site 0) - Num (1#1) / (Site 0 * Site 0)];
    [Num (2#1) * Var 23 / (Site 0 * Site 0 * Site 0);
    Num (2#1) * Var 23 / (Site 0 * Site 0 * Site 0);
    Num (2#1) * Var 23 / (Site 0 * Site 0 * Site 0);
    Num (2#1) * Var 23 / (Site 0 * Site 0 * Site 0) - Num (1#1) / (Site 0 * Site 0)];
    [Num (2#1) * Var 23 / (Site 0 * Site 0 * Site 0) - Num (1#1) / (Site 0 * Site 0);
    Num (2#1) * Var 23 / (Site 0 * Site 0 * Site 0) - Num (1#1) / (Site 0 * Site 0);
    Num (2#1) * Var 23 / (Site 0 * Site 0 * Site 0) - Num (1#1) / (Site 0 * Site 0);
    Num (2#1) * Var 23 / (Site 0 * Site 0 * Site 0) - Num (1#1) / (Site 0 * Site 0) - Num (1#1) / (Site 0 * Site 0)]]].
(** sources/majorite.c 390-596: conMaj, inpMask SECOND, output d3m[i][j][k][l] *)
Definition Maj_con_d3m :=
  [[[[Num (-6#1) * Var 21 / (Site 0 * Site 0 * Site 0 * Site 0);
    Num (-6#1) * Var 21 / (Site 0 * Site 0 * Site 0 * Site 0) + Num (2#1) / (Site 0 * Site 0 * Site 0);
    Num (-6#1) * Var 21 / (Site 0 * Site 0 * Site 0 * Site 0);
    Num (-6#1) * Var 21 / (Site 0 * Site 0 * Site 0 * Site 0)];
    [Num (-6#1) * Var 21 / (Site 0 * Site 0 * Site 0 * Site 0) + Num (2#1) / (Site 0 * Site 0 * Site 0);
    Num (-6#1) * Var 21 / (Site 0 * Site 0 * Site 0 * Site 0) + Num (2#1) / (Site 0 * Site 0 * Site 0) + Num (2#1) / (Site 0 * Site 0 * Site 0);
    Num (-6#1) * Var 21 / (Site 0 * Site 0 * Site 0 * Site 0) + Num (2#1) / (Site 0 * Site 0 * Site 0);
    Num (-6#1) * Var 21 / (Site 0 * Site 0 * Site 0 * Site 0) + Num (2#1) / (Site 0 * Site 0 * Site 0)];
    [Num (-6#1) * Var 21 / (Site 0 * Site 0 * Site 0 * Site 0);
    Num (-6#1) * Var 21 / (Site 0 * Site 0 * Site 0 * Site 0) + Num (2#1) / (Site 0 * Site 0 * Site 0);
    Num (-6#1) * Var 21 / (Site 0 * Site 0 * Site 0 * Site 0);
    Num (-6#1) * Var 21 / (Site 0 * Site 0 * Site 0 * Site 0)];
    [Num (-6#1) * Var 21 / (Site 0 * Site 0 * Site 0 * Site 0);
    Num (-6#1) * Var 21 / (Site 0 * Site 0 * Site 0 * Site 0) + Num (2#1) / (Site 0 * Site 0 * Site 0);
    Num (-6#1) * Var 21 / (Site 0 * Site 0 * Site 0 * Site 0);
    Num (-6#1) * Var 21 / (Site 0 * Site 0 * Site 0 * Site 0)]];
    [[Num (-6#1) * Var 21 / (Site 0 * Site 0 * Site 0 * Site 0) + Num (2#1) / (Site 0 * Site 0 * Site 0);
    Num (-6#1) * Var 21 / (Site 0 * Site 0 * Site 0 * Site 0) + Num (2#1) / (Site 0 * Site 0 * Site 0) + Num (2#1) / (Site 0 * Site 0 * Site 0);
    Num (-6#1) * Var 21 / (Site 0 * Site 0 * Site 0 * Site 0) + Num (2#1) / (Site 0 * Site 0 * Site 0);
    Num (-6#1) * Var 21 / (Site 0 * Site 0 * Site 0 * Site 0) + Num (2#1) / (Site 0 * Site 0 * Site 0)];
    [Num (-6#1) * Var 21 / (Site 0 * Site 0 * Site 0 * Site 0) + Num (2#1) / (Site 0 * Site 0 * Site 0) + Num (2#1) / (Site 0 * Site 0 * Site 0);
    Num (-6#1) * Var 21 / (Site 0 * Site 0 * Site 0 * Site 0) + Num (2#1) / (Site 0 * Site 0 * Site 0) + Num (2#1) / (Site 0 * Site 0 * Site 0) + Num (2#1) / (Site 0 * Site 0 * Site 0);
    Num (-6#1) * Var 21 / (Site 0 * Site 0 * Site 0 * Site 0) + Num (2#1) / (Site 0 * Site 0 * Site 0) + Num (2#1) / (Site 0 * Site 0 * Site 0);
    Num (-6#1) * Var 21 / (Site 0 * Site 0 * Site 0 * Site 0) + Num (2#1) / (Site 0 * Site 0 * Site 0) + Num (2#1) / (Site 0 * Site 0 * Site 0)];
    [Num (-6#1) * Var 21 / (Site 0 * Site 0 * Site 0 * Site 0) + Num (2#1) / (Site 0 * Site 0 * Site 0);
    Num (-6#1) * Var 21 / (Site 0 * Site 0 * Site 0 * Site 0) + Num (2#1) / (Site 0 * Site 0 * Site 0) + Num (2#1) / (Site 0 * Site 0 * Site 0);
    Num (-6#1) * Var 21 / (Site 0 * Site 0 * Site 0 * Site 0) + Num (2#1) / (Site 0 * Site 0 * Site 0);
    Num (-6#1) * Var 21 / (Site 0 * Site 0 * Site 0 * Site 0) + Num (2#1) / (Site 0 * Site 0 * Site 0)];
    [Num (-6#1) * Var 21 / (Site 0 * Site 0 * Site 0 * Site 0) + Num (2#1) / (Site 0 * Site 0 * Site 0);
    Num (-6#1) * Var 21 / (Site 0 * Site 0 * Site 0 * Site 0) + Num (2#1) / (Site 0 * Site 0 * Site 0) + Num (2#1) / (Site 0 * Site 0 * Site 0);
    Num (-6#1) * Var 21 / (Site 0 * Site 0 * Site 0 * Site 0) + Num (2#1) / (Site 0 * Site 0 * Site 0);
    Num (-6#1) * Var 21 / (Site 0 * Site 0 * Site 0 * Site 0) + Num (2#1) / (Site 0 * Site 0 * Site 0)]];
    [[Num (-6#1) * Var 21 / (Site 0 * Site 0 * Site 0 * Site 0);
    Num (-6#1) * Var 21 / (Site 0 * Site 0 * Site 0 * Site 0) + Num (2#1) / (Site 0 * Site 0 * Site 0);
    Num (-6#1) * Var 21 / (Site 0 * Site 0 * Site 0 * Site 0);
    Num (-6#1) * Var 21 / (Site 0 * Site 0 * Site 0 * Site 0)];
    [Num (-6#1) * Var 21 / (Site 0 * Site 0 * Site 0 * Site 0) + Num (2#1) / (Site 0 * Site 0 * Site 0);
    Num (-6#1) * Var 21 / (Site 0 * Site 0 * Site 0 * Site 0) + Num (2#1) / (Site 0 * Site 0 * Site 0) + Num (2#1) / (Site 0 * Site 0 * Site 0);
    Num (-6#1) * Var 21 / (Site 0 * Site 0 * Site 0 * Site 0) + Num (2#1) / (Site 0 * Site 0 * Site 0);
    Num (-6#1) * Var 21 / (Site 0 * Site 0 * Site 0 * Site 0) + Num (2#1) / (Site 0 * Site 0 * Site 0)];
    [Num (-6#1) * Var 21 / (Site 0 * Site 0 * Site 0 * Site 0);
    Num (-6#1) * Var 21 / (Site 0 * Site 0 * Site 0 * Site 0) + Num (2#1) / (Site 0 * Site 0 * Site 0);
    Num (-6#1) * Var 21 / (Site 0 * Site 0 * Site 0 * Site 0);
    Num (-6#1) * Var 21 / (Site 0 * Site 0 * Site 0 * Site 0)];
    [Num (-6#1) * Var 21 / (Site 0 * Site 0 * Site 0 * Site 0);
    Num (-6#1) * Var 21 / (Site 0 * Site 0 * Site 0 * Site 0) + Num (2#1) / (Site 0 * Site 0 * Site 0);
    Num (-6#1) * Var 21 / (Site 0 * Site 0 * Site 0 * Site 0);
    Num (-6#1) * Var 21 / (Site 0 * Site 0 * Site 0 * Site 0)]];
    [[Num (-6#1) * Var 21 / (Site 0 * Site 0 * Site 0 * Site 0);
    Num (-6#1) * Var 21 / (Site 0 * Site 0 * Site 0 * Site 0) + Num (2#1) / (Site 0 * Site 0 * Site 0);
    Num (-6#1) * Var 21 / (Site 0 * Site 0 * Site 0 * Site 0);
    Num (-6#1) * Var 21 / (Site 0 * Site 0 * Site 0 * Site 0)];
    [Num (-6#1) * Var 21 / (Site 0 * Site 0 * Site 0 * Site 0) + Num (2#1) / (Site 0 * Site 0 * Site 0);
    Num (-6#1) * Var 21 / (Site 0 * Site 0 * Site 0 * Site 0) + Num (2#1) / (Site 0 * Site 0 * Site 0) + Num (2#1) / (Site 0 * Site 0 * Site 0);
    Num (-6#1) * Var 21 / (Site 0 * Site 0 * Site 0 * Site 0) + Num (2#1) / (Site 0 * Site 0 * Site 0);
    Num (-6#1) * Var 21 / (Site 0 * Site 0 * Site 0 * Site 0) + Num (2#1) / (Site 0 * Site 0 * Site 0)];
    [Num (-6#1) * Var 21 / (Site 0 * Site 0 * Site 0 * Site 0);
    Num (-6#1) * Var 21 / (Site 0 * Site 0 * Site 0 * Site 0) + Num (2#1) / (Site 0 * Site 0 * Site 0);
    Num (-6#1) * Var 21 / (Site 0 * Site 0 * Site 0 * Site 0);
    Num (-6#1) * Var 21 / (Site 0 * Site 0 * Site 0 * Site 0)];
    [Num (-6#1) * Var 21 / (Site 0 * Site 0 * Site 0 * Site 0);
    Num (-6#1) * Var 21 / (Site 0 * Site 0 * Site 0 * Site 0) + Num (2#1) / (Site 0 * Site 0 * Site 0);
    Num (-6#1) * Var 21 / (Site 0 * Site 0 * Site 0 * Site 0);
    Num (-6#1) * Var 21 / (Site 0 * Site 0 * Site 0 * Site 0)]]];
    [[[Num (-6#1) * Var 22 / (Site 0 * Site 0 * Site 0 * Site 0);
    Num (-6#1) * Var 22 / (Site 0 * Site 0 * Site 0 * Site 0);
    Num (-6#1) * Var 22 / (Site 0 * Site 0 * Site 0 * Site 0) + Num (2#1) / (Site 0 * Site 0 * Site 0);
    Num (-6#1) * Var 22 / (Site 0 * Site 0 * Site 0 * Site 0)];
    [Num (-6#1) * Var 22 / (Site 0 * Site 0 * Site 0 * Site 0);
    Num (-6#1) * Var 22 / (Site 0 * Site 0 * Site 0 * Site 0);
    Num (-6#1) * Var 22 / (Site 0 * Site 0 * Site 0 * Site 0) + Num (2#1) / (Site 0 * Site 0 * Site 0);
    Num (-6#1) * Var 22 / (Site 0 * Site 0 * Site 0 * Site 0)];
    [Num (-6#1) * Var 22 / (Site 0 * Site 0 * Site 0 * Site 0) + Num (2#1) / (Site 0 * Site 0 * Site 0);
    Num (-6#1) * Var 22 / (Site 0 * Site 0 * Site 0 * Site 0) + Num (2#1) / (Site 0 * Site 0 * Site 0);
    Num (-6#1) * Var 22 / (Site 0 * Site 0 * Site 0 * Site 0) + Num (2#1) / (Site 0 * Site 0 * Site 0) + Num (2#1) / (Site 0 * Site 0 * Site 0);
    Num (-6#1) * Var 22 / (Site 0 * Site 0 * Site 0 * Site 0) + Num (2#1) / (Site 0 * Site 0 * Site 0)];
    [Num (-6#1) * Var 22 / (Site 0 * Site 0 * Site 0 * Site 0);
    Num (-6#1) * Var 22 / (Site 0 * Site 0 * Site 0 * Site 0);
    Num (-6#1) * Var 22 / (Site 0 * Site 0 * Site 0 * Site 0) + Num (2#1) / (Site 0 * Site 0 * Site 0);
    Num (-6#1) * Var 22 / (Site 0 * Site 0 * Site 0 * Site 0)]];
    [[Num (-6#1) * Var 22 / (Site 0 * Site 0 * Site 0 * Site 0);
    Num (-6#1) * Var 22 / (Site 0 * Site 0 * Site 0 * Site 0);
    Num (-6#1) * Var 22 / (Site 0 * Site 0 * Site 0 * Site 0) + Num (2#1) / (Site 0 * Site 0 * Site 0);
    Num (-6#1) * Var 22 / (Site 0 * Site 0 * Site 0 * Site 0)];
    [Num (-6#1) * Var 22 / (Site 0 * Site 0 * Site 0 * Site 0);
    Num (-6#1) * Var 22 / (Site 0 * Site 0 * Site 0 * Site 0);
    Num (-6#1) * Var 22 / (Site 0 * Site 0 * Site 0 * Site 0) + Num (2#1) / (Site 0 * Site 0 * Site 0);
    Num (-6#1) * Var 22 / (Site 0 * Site 0 * Site 0 * Site 0)];
    [Num (-6#1) * Var 22 / (Site 0 * Site 0 * Site 0 * Site 0) + Num (2#1) / (Site 0 * Site 0 * Site 0);
    Num (-6#1) * Var 22 / (Site 0 * Site 0 * Site 0 * Site 0) + Num (2#1) / (Site 0 * Site 0 * Site 0);
    Num (-6#1) * Var 22 / (Site 0 * Site 0 * Site 0 * Site 0) + Num (2#1) / (Site 0 * Site 0 * Site 0) + Num (2#1) / (Site 0 * Site 0 * Site 0);
    Num (-6#1) * Var 22 / (Site 0 * Site 0 * Site 0 * Site 0) + Num (2#1) / (Site 0 * Site 0 * Site 0)];
    [Num (-6#1) * Var 22 / (Site 0 * Site 0 * Site 0 * Site 0);
    Num (-6#1) * Var 22 / (Site 0 * Site 0 * Site 0 * Site 0);
    Num (-6#1) * Var 22 / (Site 0 * Site 0 * Site 0 * Site 0) + Num (2#1) / (Site 0 * Site 0 * Site 0);
    Num (-6#1) * Var 22 / (Site 0 * Site 0 * Site 0 * Site 0)]];
    [[Num (-6#1) * Var 22 / (Site 0 * Site 0 * Site 0 * Site 0) + Num (2#1) / (Site 0 * Site 0 * Site 0);
    Num (-6#1) * Var 22 / (Site 0 * Site 0 * Site 0 * Site 0) + Num (2#1) / (Site 0 * Site 0 * Site 0);
    Num (-6#1) * Var 22 / (Site 0 * Site 0 * Site 0 * Site 0) + Num (2#1) / (Site 0 * Site 0 * Site 0) + Num (2#1) / (Site 0 * Site 0 * Site 0);
    Num (-6#1) * Var 22 / (Site 0 * Site 0 * Site 0 * Site 0) + Num (2#1) / (Site 0 * Site 0 * Site 0)];
    [Num (-6#1) * Var 22 / (Site 0 * Site 0 * Site 0 * Site 0) + Num (2#1) / (Site 0 * Site 0 * Site 0);
    Num (-6#1) * Var 22 / (Site 0 * Site 0 * Site 0 * Site 0) + Num (2#1) / (Site 0 * Site 0 * Site 0);
    Num (-6#1) * Var 22 / (Site 0 * Site 0 * Site 0 * Site 0) + Num (2#1) / (Site 0 * Site 0 * Site 0) + Num (2#1) / (Site 0 * Site 0 * Site 0);
    Num (-6#1) * Var 22 / (Site 0 * Site 0 * Site 0 * Site 0) + Num (2#1) / (Site 0 * Site 0 * Site 0)];
    [Num (-6#1) * Var 22 / (Site 0 * Site 0 * Site 0 * Site 0) + Num (2#1) / (Site 0 * Site 0 * Site 0) + Num (2#1) / (Site 0 * Site 0 * Site 0);
    Num (-6#1) * Var 22 / (Site 0 * Site 0 * Site 0 * Site 0) + Num (2#1) / (Site 0 * Site 0 * Site 0) + Num (2#1) / (Site 0 * Site 0 * Site 0);
    Num (-6#1) * Var 22 / (Site 0 * Site 0 * Site 0 * Site 0) + Num (2#1) / (Site 0 * Site 0 * Site 0) + Num (2#1) / (Site 0 * Site 0 * Site 0) + Num (2#1) / (Site 0 * Site 0 * Site 0);
    Num (-6#1) * Var 22 / (Site 0 * Site 0 * Site 0 * Site 0) + Num (2#1) / (Site 0 * Site 0 * Site 0) + Num (2#1) / (Site 0 * Site 0 * Site 0)];
    [Num (-6#1) * Var 22 / (Site 0 * Site 0 * Site 0 * Site 0) + Num (2#1) / (Site 0 * Site 0 * Site 0);
    Num (-6#1) * Var 22 / (Site 0 * Site 0 * Site 0 * Site 0) + Num (2#1) / (Site 0 * Site 0 * Site 0);
    Num (-6#1) * Var 22 / (Site 0 * Site 0 * Site 0 * Site 0) + Num (2#1) / (Site 0 * Site 0 * Site 0) + Num (2#1) / (Site 0 * Site 0 * Site 0);
    Num (-6#1) * Var 22 / (Site 0 * Site 0 * Site 0 * Site 0) + Num (2#1) / (Site 0 * Site 0 * Site 0)]];
    [[Num (-6#1) * Var 22 / (Site 0 * Site 0 * Site 0 * Site 0);
    Num (-6#1) * Var 22 / (Site 0 * Site 0 * Site 0 * Site 0);
    Num (-6#1) * Var 22 / (Site 0 * Site 0 * Site 0 * Site 0) + Num (2#1) / (Site 0 * Site 0 * Site 0);
    Num (-6#1) * Var 22 / (Site 0 * Site 0 * Site 0 * Site 0)];
    [Num (-6#1) * Var 22 / (Site 0 * Site 0 * Site 0 * Site 0);
    Num (-6#1) * Var 22 / (Site 0 * Site 0 * Site 0 * Site 0);
    Num (-6#1) * Var 22 / (Site 0 * Site 0 * Site 0 * Site 0) + Num (2#1) / (Site 0 * Site 0 * Site 0);
    Num (-6#1) * Var 22 / (Site 0 * Site 0 * Site 0 * Site 0)];
    [Num (-6#1) * Var 22 / (Site 0 * Site 0 * Site 0 * Site 0) + Num (2#1) / (Site 0 * Site 0 * Site 0);
    Num (-6#1) * Var 22 / (Site 0 * Site 0 * Site 0 * Site 0) + Num (2#1) / (Site 0 * Site 0 * Site 0);
    Num (-6#1) * Var 22 / (Site 0 * Site 0 * Site 0 * Site 0) + Num (2#1) / (Site 0 * Site 0 * Site 0) + Num (2#1) / (Site 0 * Site 0 * Site 0);
    Num (-6#1) * Var 22 / (Site 0 * Site 0 * Site 0 * Site 0) + Num (2#1) / (Site 0 * Site 0 * Site 0)];
    [Num (-6#1) * Var 22 / (Site 0 * Site 0 * Site 0 * Site 0);
    Num (-6#1) * Var 22 / (Site 0 * Site 0 * Site 0 * Site 0);
    Num (-6#1) * Var 22 / (Site 0 * Site 0 * Site 0 * Site 0) + Num (2#1) / (Site 0 * Site 0 * Site 0);
    Num (-6#1) * Var 22 / (Site 0 * Site 0 * Site 0 * Site 0)]]];
    [[[Num (-6#1) * Var 23 / (Site 0 * Site 0 * Site 0 * Site 0);
    Num (-6#1) * Var 23 / (Site 0 * Site 0 * Site 0 * Site 0);
    Num (-6#1) * Var 23 / (Site 0 * Site 0 * Site 0 * Site 0);
    Num (-6#1) * Var 23 / (Site 0 * Site 0 * Site 0 * Site 0) + Num (2#1) / (Site 0 * Site 0 * Site 0)];
    [Num (-6#1) * Var 23 / (Site 0 * Site 0 * Site 0 * Site 0);
    Num (-6#1) * Var 23 / (Site 0 * Site 0 * Site 0 * Site 0);
    Num (-6#1) * Var 23 / (Site 0 * Site 0 * Site 0 * Site 0);
    Num (-6#1) * Var 23 / (Site 0 * Site 0 * Site 0 * Site 0) + Num (2#1) / (Site 0 * Site 0 * Site 0)];
    [Num (-6#1) * Var 23 / (Site 0 * Site 0 * Site 0 * Site 0);
    Num (-6#1) * Var 23 / (Site 0 * Site 0 * Site 0 * Site 0);
    Num (-6#1) * Var 23 / (Site 0 * Site 0 * Site 0 * Site 0);
    Num (-6#1) * Var 23 / (Site 0 * Site 0 * Site 0 * Site 0) + Num (2#1) / (Site 0 * Site 0 * Site 0)];
    [Num (-6#1) * Var 23 / (Site 0 * Site 0 * Site 0 * Site 0) + Num (2#1) / (Site 0 * Site 0 * Site 0);
    Num (-6#1) * Var 23 / (Site 0 * Site 0 * Site 0 * Site 0) + Num (2#1) / (Site 0 * Site 0 * Site 0);
    Num (-6#1) * Var 23 / (Site 0 * Site 0 * Site 0 * Site 0) + Num (2#1) / (Site 0 * Site 0 * Site 0);
    Num (-6#1) * Var 23 / (Site 0 * Site 0 * Site 0 * Site 0) + Num (2#1) / (Site 0 * Site 0 * Site 0) + Num (2#1) / (Site 0 * Site 0 * Site 0)]];
    [[Num (-6#1) * Var 23 / (Site 0 * Site 0 * Site 0 * Site 0);
    Num (-6#1) * Var 23 / (Site 0 * Site 0 * Site 0 * Site 0);
    Num (-6#1) * Var 23 / (Site 0 * Site 0 * Site 0 * Site 0);
    Num (-6#1) * Var 23 / (Site 0 * Site 0 * Site 0 * Site 0) + Num (2#1) / (Site 0 * Site 0 * Site 0)];
    [Num (-6#1) * Var 23 / (Site 0 * Site 0 * Site 0 * Site 0);
    Num (-6#1) * Var 23 / (Site 0 * Site 0 * Site 0 * Site 0);
    Num (-6#1) * Var 23 / (Site 0 * Site 0 * Site 0 * Site 0);
    Num (-6#1) * Var 23 / (Site 0 * Site 0 * Site 0 * Site 0) + Num (2#1) / (Site 0 * Site 0 * Site 0)];
    [Num (-6#1) * Var 23 / (Site 0 * Site 0 * Site 0 * Site 0);
    Num (-6#1) * Var 23 / (Site 0 * Site 0 * Site 0 * Site 0);
    Num (-6#1) * Var 23 / (Site 0 * Site 0 * Site 0 * Site 0);
    Num (-6#1) * Var 23 / (Site 0 * Site 0 * Site 0 * Site 0) + Num (2#1) / (Site 0 * Site 0 * Site 0)];
    [Num (-6#1) * Var 23 / (Site 0 * Site 0 * Site 0 * Site 0) + Num (2#1) / (Site 0 * Site 0 * Site 0);
    Num (-6#1) * Var 23 / (Site 0 * Site 0 * Site 0 * Site 0) + Num (2#1) / (Site 0 * Site 0 * Site 0);
    Num (-6#1) * Var 23 / (Site 0 * Site 0 * Site 0 * Site 0) + Num (2#1) / (Site 0 * Site 0 * Site 0);
    Num (-6#1) * Var 23 / (Site 0 * Site 0 * Site 0 * Site 0) + Num (2#1) / (Site 0 * Site 0 * Site 0) + Num (2#1) / (Site 0 * Site 0 * Site 0)]];
    [[Num (-6#1) * Var 23 / (Site 0 * Site 0 * Site 0 * Site 0);
    Num (-6#1) * Var 23 / (Site 0 * Site 0 * Site 0 * Site 0);
    Num (-6#1) * Var 23 / (Site 0 * Site 0 * Site 0 * Site 0);
    Num (-6#1) * Var 23 / (Site 0 * Site 0 * Site 0 * Site 0) + Num (2#1) / (Site 0 * Site 0 * Site 0)];
    [Num (-6#1) * Var 23 / (Site 0 * Site 0 * Site 0 * Site 0);
    Num (-6#1) * Var 23 / (Site 0 * Site 0 * Site 0 * Site 0);
    Num (-6#1) * Var 23 / (Site 0 * Site 0 * Site 0 * Site 0);
    Num (-6#1) * Var 23 / (Site 0 * Site 0 * Site 0 * Site 0) + Num (2#1) / (Site 0 * Site 0 * Site 0)];
    [Num (-6#1) * Var 23 / (Site 0 * Site 0 * Site 0 * Site 0);
    Num (-6#1) * Var 23 / (Site 0 * Site 0 * Site 0 * Site 0);
    Num (-6#1) * Var 23 / (Site 0 * Site 0 * Site 0 * Site 0);
    Num (-6#1) * Var 23 / (Site 0 * Site 0 * Site 0 * Site 0) + Num (2#1) / (Site 0 * Site 0 * Site 0)];
    [Num (-6#1) * Var 23 / (Site 0 * Site 0 * Site 0 * Site 0) + Num (2#1) / (Site 0 * Site 0 * Site 0);
    Num (-6#1) * Var 23 / (Site 0 * Site 0 * Site 0 * Site 0) + Num (2#1) / (Site 0 * Site 0 * Site 0);
    Num (-6#1) * Var 23 / (Site 0 * Site 0 * Site 0 * Site 0) + Num (2#1) / (Site 0 * Site 0 * Site 0);
    Num (-6#1) * Var 23 / (Site 0 * Site 0 * Site 0 * Site 0) + Num (2#1) / (Site 0 * Site 0 * Site 0) + Num (2#1) / (Site 0 * Site 0 * Site 0)]];
    [[Num (-6#1) * Var 23 / (Site 0 * Site 0 * Site 0 * Site 0) + Num (2#1) / (Site 0 * Site 0 * Site 0);
    Num (-6#1) * Var 23 / (Site 0 * Site 0 * Site 0 * Site 0) + Num (2#1) / (Site 0 * Site 0 * Site 0);
    Num (-6#1) * Var 23 / (Site 0 * Site 0 * Site 0 * Site 0) + Num (2#1) / (Site 0 * Site 0 * Site 0);
    Num (-6#1) * Var 23 / (Site 0 * Site 0 * Site 0 * Site 0) + Num (2#1) / (Site 0 * Site 0 * Site 0) + Num (2#1) / (Site 0 * Site 0 * Site 0)];
    [Num (-6#1) * Var 23 / (Site 0 * Site 0 * Site 0 * Site 0) + Num (2#1) / (Site 0 * Site 0 * Site 0);
    Num (-6#1) * Var 23 / (Site 0 * Site 0 * Site 0 * Site 0) + Num (2#1) / (Site 0 * Site 0 * Site 0);
    Num (-6#1) * Var 23 / (Site 0 * Site 0 * Site 0 * Site 0) + Num (2#1) / (Site 0 * Site 0 * Site 0);
    Num (-6#1) * Var 23 / (Site 0 * Site 0 * Site 0 * Site 0) + Num (2#1) / (Site 0 * Site 0 * Site 0) + Num (2#1) / (Site 0 * Site 0 * Site 0)];
    [Num (-6#1) * Var 23 / (Site 0 * Site 0 * Site 0 * Site 0) + Num (2#1) / (Site 0 * Site 0 * Site 0);
    Num (-6#1) * Var 23 / (Site 0 * Site 0 * Site 0 * Site 0) + Num (2#1) / (Site 0 * Site 0 * Site 0);
    Num (-6#1) * Var 23 / (Site 0 * Site 0 * Site 0 * Site 0) + Num (2#1) / (Site 0 * Site 0 * Site 0);
    Num (-6#1) * Var 23 / (Site 0 * Site 0 * Site 0 * Site 0) + Num (2#1) / (Site 0 * Site 0 * Site 0) + Num (2#1) / (Site 0 * Site 0 * Site 0)];
    [Num (-6#1) * Var 23 / (Site 0 * Site 0 * Site 0 * Site 0) + Num (2#1) / (Site 0 * Site 0 * Site 0) + Num (2#1) / (Site 0 * Site 0 * Site 0);
    Num (-6#1) * Var 23 / (Site 0 * Site 0 * Site 0 * Site 0) + Num (2#1) / (Site 0 * Site 0 * Site 0) + Num (2#1) / (Site 0 * Site 0 * Site 0);
    Num (-6#1) * Var 23 / (Site 0 * Site 0 * Site 0 * Site 0) + Num (2#1) / (Site 0 * Site 0 * Site 0) + Num (2#1) / (Site 0 * Site 0 * Site 0);
    Num (-6#1) * Var 23 / (Site 0 * Site 0 * Site 0 * Site 0) + Num (2#1) / (Site 0 * Site 0 * Site 0) + Num (2#1) / (Site 0 * Site 0 * Site 0) + Num (2#1) / (Site 0 * Site 0 * Site 0)]]]].
(** sources/majorite.c 390-596: conMaj, inpMask THIRD, output x[i] from r *)
Definition Maj_con_xr :=
  [Num (1#1) - Var 2 - Var 3 - Var 4;
    Var 2;
    Var 3;
    Var 4].
(** sources/majorite.c 390-596: conMaj, inpMask THIRD, output dr[i][j] *)
Definition Maj_con_dr :=
  [[Num (-1#1);
    Num (-1#1);
    Num (-1#1)];
    [Num (1#1);
    Num (0#1);
    Num (0#1)];
    [Num (0#1);
    Num (1#1);
    Num (0#1)];
    [Num (0#1);
    Num (0#1);
    Num (1#1)]].
(** sources/majorite.c 390-596: x[i] from r is set to zero when it is smaller in absolute value than this number *)
Definition Maj_con_snap : list (nat * Q) := [].
Definition conMaj : conv :=
  mkConv "majorite" 4 3 Maj_con_r Maj_con_x Maj_con_dm Maj_con_d2m Maj_con_d3m Maj_con_xr Maj_con_dr Maj_con_snap.

(** sources/olivine-sx.c 175-326: conOsx, inpMask SECOND, output r[i] from m *)
Definition Osx_con_r :=
  [Var 20 / Site 0].
(** sources/olivine-sx.c 175-326: conOsx, inpMask SECOND, output x[i] from m *)
Definition Osx_con_x :=
  [Var 20 / Site 0;
    Var 21 / Site 0].
(** sources/olivine-sx.c 175-326: conOsx, inpMask SECOND, output dm[i][j] *)
Definition Osx_con_dm :=
  [[(Num (1#1) - Var 20 / Site 0) / Site 0;
    (- Var 20) / (Site 0 * Site 0)]].
(** sources/olivine-sx.c 175-326: conOsx, inpMask SECOND, output d2m[i][j][k] *)
Definition Osx_con_d2m :=
  [[[Num (2#1) * Var 20 / (Site 0 * Site 0 * Site 0) - Num (1#1) / (Site 0 * Site 0) - Num (1#1) / (Site 0 * Site 0);
    Num (2#1) * Var 20 / (Site 0 * Site 0 * Site 0) - Num (1#1) / (Site 0 * Site 0)];
    [Num (2#1) * Var 20 / (Site 0 * Site 0 * Site 0) - Num (1#1) / (Site 0 * Site 0);
    Num (2#1) * Var 20 / (Site 0 * Site 0 * Site 0)]]].
(** sources/olivine-sx.c 175-326: conOsx, inpMask SECOND, output d3m[i][j][k][l] *)
Definition Osx_con_d3m :=
  [[[[Num (-6#1) * Var 20 / (Site 0 * Site 0 * Site 0 * Site 0) + Num (2#1) / (Site 0 * Site 0 * Site 0) + Num (2#1) / (Site 0 * Site 0 * Site 0) + Num (2#1) / (Site 0 * Site 0 * Site 0);
    Num (-6#1) * Var 20 / (Site 0 * Site 0 * Site 0 * Site 0) + Num (2#1) / (Site 0 * Site 0 * Site 0) + Num (2#1) / (Site 0 * Site 0 * Site 0)];
    [Num (-6#1) * Var 20 / (Site 0 * Site 0 * Site 0 * Site 0) + Num (2#1) / (Site 0 * Site 0 * Site 0) + Num (2#1) / (Site 0 * Site 0 * Site 0);
    Num (-6#1) * Var 20 / (Site 0 * Site 0 * Site 0 * Site 0) + Num (2#1) / (Site 0 * Site 0 * Site 0)]];
    [[Num (-6#1) * Var 20 / (Site 0 * Site 0 * Site 0 * Site 0) + Num (2#1) / (Site 0 * Site 0 * Site 0) + Num (2#1) / (Site 0 * Site 0 * Site 0);
    Num (-6#1) * Var 20 / (Site 0 * Site 0 * Site 0 * Site 0) + Num (2#1) / (Site 0 * Site 0 * Site 0)];
    [Num (-6#1) * Var 20 / (Site 0 * Site 0 * Site 0 * Site 0) + Num (2#1) / (Site 0 * Site 0 * Site 0);
    Num (-6#1) * Var 20 / (Site 0 * Site 0 * Site 0 * Site 0)]]]].
(** sources/olivine-sx.c 175-326: conOsx, inpMask THIRD, output x[i] from r *)
Definition Osx_con_xr :=
  [Var 2;
    Num (1#1) - Var 2].
(** sources/olivine-sx.c 175-326: conOsx, inpMask THIRD, output dr[i][j] *)
Definition Osx_con_dr :=
  [[Num (1#1)];
    [Num (-1#1)]].
(** sources/olivine-sx.c 175-326: x[i] from r is set to zero when it is smaller in absolute value than this number *)
Definition Osx_con_snap : list (nat * Q) := [].
Definition conOsx : conv :=
  mkConv "olivine-sx" 2 1 Osx_con_r Osx_con_x Osx_con_dm Osx_con_d2m Osx_con_d3m Osx_con_xr Osx_con_dr Osx_con_snap.

(** sources/perovskite.c 175-326: conPvk, inpMask SECOND, output r[i] from m *)
Definition Pvk_con_r :=
  [Var 20 / Site 0].
(** sources/perovskite.c 175-326: conPvk, inpMask SECOND, output x[i] from m *)
Definition Pvk_con_x :=
  [Var 20 / Site 0;
    Var 21 / Site 0].
(** sources/perovskite.c 175-326: conPvk, inpMask SECOND, output dm[i][j] *)
Definition Pvk_con_dm :=
  [[(Num (1#1) - Var 20 / Site 0) / Site 0;
    (- Var 20) / (Site 0 * Site 0)]].
(** sources/perovskite.c 175-326: conPvk, inpMask SECOND, output d2m[i][j][k] *)
Definition Pvk_con_d2m :=
  [[[Num (2#1) * Var 20 / (Site 0 * Site 0 * Site 0) - Num (1#1) / (Site 0 * Site 0) - Num (1#1) / (Site 0 * Site 0);
    Num (2#1) * Var 20 / (Site 0 * Site 0 * Site 0) - Num (1#1) / (Site 0 * Site 0)];
    [Num (2#1) * Var 20 / (Site 0 * Site 0 * Site 0) - Num (1#1) / (Site 0 * Site 0);
    Num (2#1) * Var 20 / (Site 0 * Site 0 * Site 0)]]].
(** sources/perovskite.c 175-326: conPvk, inpMask SECOND, output d3m[i][j][k][l] *)
Definition Pvk_con_d3m :=
  [[[[Num (-6#1) * Var 20 / (Site 0 * Site 0 * Site 0 * Site 0) + Num (2#1) / (Site 0 * Site 0 * Site 0) + Num (2#1) / (Site 0 * Site 0 * Site 0) + Num (2#1) / (Site 0 * Site 0 * Site 0);
    Num (-6#1) * Var 20 / (Site 0 * Site 0 * Site 0 * Site 0) + Num (2#1) / (Site 0 * Site 0 * Site 0) + Num (2#1) / (Site 0 * Site 0 * Site 0)];
    [Num (-6#1) * Var 20 / (Site 0 * Site 0 * Site 0 * Site 0) + Num (2#1) / (Site 0 * Site 0 * Site 0) + Num (2#1) / (Site 0 * Site 0 * Site 0);
    Num (-6#1) * Var 20 / (Site 0 * Site 0 * Site 0 * Site 0) + Num (2#1) / (Site 0 * Site 0 * Site 0)]];
    [[Num (-6#1) * Var 20 / (Site 0 * Site 0 * Site 0 * Site 0) + Num (2#1) / (Site 0 * Site 0 * Site 0) + Num (2#1) / (Site 0 * Site 0 * Site 0);
    Num (-6#1) * Var 20 / (Site 0 * Site 0 * Site 0 * Site 0) + Num (2#1) / (Site 0 * Site 0 * Site 0)];
    [Num (-6#1) * Var 20 / (Site 0 * Site 0 * Site 0 * Site 0) + Num (2#1) / (Site 0 * Site 0 * Site 0);
    Num (-6#1) * Var 20 / (Site 0 * Site 0 * Site 0 * Site 0)]]]].
(** sources/perovskite.c 175-326: conPvk, inpMask THIRD, output x[i] from r *)
Definition Pvk_con_xr :=
  [Var 2;
    Num (1#1) - Var 2].
(** sources/perovskite.c 175-326: conPvk, inpMask THIRD, output dr[i][j] *)
Definition Pvk_con_dr :=
  [[Num (1#1)];
    [Num (-1#1)]].
(** sources/perovskite.c 175-326: x[i] from r is set to zero when it is smaller in absolute value than this number *)
Definition Pvk_con_snap : list (nat * Q) := [].
Definition conPvk : conv :=
  mkConv "perovskite" 2 1 Pvk_con_r Pvk_con_x Pvk_con_dm Pvk_con_d2m Pvk_con_d3m Pvk_con_xr Pvk_con_dr Pvk_con_snap.

(** sources/ringwoodite.c 175-326: conRgw, inpMask SECOND, output r[i] from m *)
Definition Rgw_con_r :=
  [Var 20 / Site 0].
(** sources/ringwoodite.c 175-326: conRgw, inpMask SECOND, output x[i] from m *)
Definition Rgw_con_x :=
  [Var 20 / Site 0;
    Var 21 / Site 0].
(** sources/ringwoodite.c 175-326: conRgw, inpMask SECOND, output dm[i][j] *)
Definition Rgw_con_dm :=
  [[(Num (1#1) - Var 20 / Site 0) / Site 0;
    (- Var 20) / (Site 0 * Site 0)]].
(** sources/ringwoodite.c 175-326: conRgw, inpMask SECOND, output d2m[i][j][k] *)
Definition Rgw_con_d2m :=
  [[[Num (2#1) * Var 20 / (Site 0 * Site 0 * Site 0) - Num (1#1) / (Site 0 * Site 0) - Num (1#1) / (Site 0 * Site 0);
    Num (2#1) * Var 20 / (Site 0 * Site 0 * Site 0) - Num (1#1) / (Site 0 * Site 0)];
    [Num (2#1) * Var 20 / (Site 0 * Site 0 * Site 0) - Num (1#1) / (Site 0 * Site 0);
    Num (2#1) * Var 20 / (Site 0 * Site 0 * Site 0)]]].
(** sources/ringwoodite.c 175-326: conRgw, inpMask SECOND, output d3m[i][j][k][l] *)
Definition Rgw_con_d3m :=
  [[[[Num (-6#1) * Var 20 / (Site 0 * Site 0 * Site 0 * Site 0) + Num (2#1) / (Site 0 * Site 0 * Site 0) + Num (2#1) / (Site 0 * Site 0 * Site 0) + Num (2#1) / (Site 0 * Site 0 * Site 0);
    Num (-6#1) * Var 20 / (Site 0 * Site 0 * Site 0 * Site 0) + Num (2#1) / (Site 0 * Site 0 * Site 0) + Num (2#1) / (Site 0 * Site 0 * Site 0)];
    [Num (-6#1) * Var 20 / (Site 0 * Site 0 * Site 0 * Site 0) + Num (2#1) / (Site 0 * Site 0 * Site 0) + Num (2#1) / (Site 0 * Site 0 * Site 0);
    Num (-6#1) * Var 20 / (Site 0 * Site 0 * Site 0 * Site 0) + Num (2#1) / (Site 0 * Site 0 * Site 0)]];
    [[Num (-6#1) * Var 20 / (Site 0 * Site 0 * Site 0 * Site 0) + Num (2#1) / (Site 0 * Site 0 * Site 0) + Num (2#1) / (Site 0 * Site 0 * Site 0);
    Num (-6#1) * Var 20 / (Site 0 * Site 0 * Site 0 * Site 0) + Num (2#1) / (Site 0 * Site 0 * Site 0)];
    [Num (-6#1) * Var 20 / (Site 0 * Site 0 * Site 0 * Site 0) + Num (2#1) / (Site 0 * Site 0 * Site 0);
    Num (-6#1) * Var 20 / (Site 0 * Site 0 * Site 0 * Site 0)]]]].
(** sources/ringwoodite.c 175-326: conRgw, inpMask THIRD, output x[i] from r *)
Definition Rgw_con_xr :=
  [Var 2;
    Num (1#1) - Var 2].
(** sources/ringwoodite.c 175-326: conRgw, inpMask THIRD, output dr[i][j] *)
Definition Rgw_con_dr :=
  [[Num (1#1)];
    [Num (-1#1)]].
(** sources/ringwoodite.c 175-326: x[i] from r is set to zero when it is smaller in absolute value than this number *)
Definition Rgw_con_snap : list (nat * Q) := [].
Definition conRgw : conv :=
  mkConv "ringwoodite" 2 1 Rgw_con_r Rgw_con_x Rgw_con_dm Rgw_con_d2m Rgw_con_d3m Rgw_con_xr Rgw_con_dr Rgw_con_snap.

(** sources/wadsleyite.c 175-326: conWds, inpMask SECOND, output r[i] from m *)
Definition Wds_con_r :=
  [Var 20 / Site 0].
(** sources/wadsleyite.c 175-326: conWds, inpMask SECOND, output x[i] from m *)
Definition Wds_con_x :=
  [Var 20 / Site 0;
    Var 21 / Site 0].
(** sources/wadsleyite.c 175-326: conWds, inpMask SECOND, output dm[i][j] *)
Definition Wds_con_dm :=
  [[(Num (1#1) - Var 20 / Site 0) / Site 0;
    (- Var 20) / (Site 0 * Site 0)]].
(** sources/wadsleyite.c 175-326: conWds, inpMask SECOND, output d2m[i][j][k] *)
Definition Wds_con_d2m :=
  [[[Num (2#1) * Var 20 / (Site 0 * Site 0 * Site 0) - Num (1#1) / (Site 0 * Site 0) - Num (1#1) / (Site 0 * Site 0);
    Num (2#1) * Var 20 / (Site 0 * Site 0 * Site 0) - Num (1#1) / (Site 0 * Site 0)];
    [Num (2#1) * Var 20 / (Site 0 * Site 0 * Site 0) - Num (1#1) / (Site 0 * Site 0);
    Num (2#1) * Var 20 / (Site 0 * Site 0 * Site 0)]]].
(** sources/wadsleyite.c 175-326: conWds, inpMask SECOND, output d3m[i][j][k][l] *)
Definition Wds_con_d3m :=
  [[[[Num (-6#1) * Var 20 / (Site 0 * Site 0 * Site 0 * Site 0) + Num (2#1) / (Site 0 * Site 0 * Site 0) + Num (2#1) / (Site 0 * Site 0 * Site 0) + Num (2#1) / (Site 0 * Site 0 * Site 0);
    Num (-6#1) * Var 20 / (Site 0 * Site 0 * Site 0 * Site 0) + Num (2#1) / (Site 0 * Site 0 * Site 0) + Num (2#1) / (Site 0 * Site 0 * Site 0)];
    [Num (-6#1) * Var 20 / (Site 0 * Site 0 * Site 0 * Site 0) + Num (2#1) / (Site 0 * Site 0 * Site 0) + Num (2#1) / (Site 0 * Site 0 * Site 0);
    Num (-6#1) * Var 20 / (Site 0 * Site 0 * Site 0 * Site 0) + Num (2#1) / (Site 0 * Site 0 * Site 0)]];
    [[Num (-6#1) * Var 20 / (Site 0 * Site 0 * Site 0 * Site 0) + Num (2#1) / (Site 0 * Site 0 * Site 0) + Num (2#1) / (Site 0 * Site 0 * Site 0);
    Num (-6#1) * Var 20 / (Site 0 * Site 0 * Site 0 * Site 0) + Num (2#1) / (Site 0 * Site 0 * Site 0)];
    [Num (-6#1) * Var 20 / (Site 0 * Site 0 * Site 0 * Site 0) + Num (2#1) / (Site 0 * Site 0 * Site 0);
    Num (-6#1) * Var 20 / (Site 0 * Site 0 * Site 0 * Site 0)]]]].
(** sources/wadsleyite.c 175-326: conWds, inpMask THIRD, output x[i] from r *)
Definition Wds_con_xr :=
  [Var 2;
    Num (1#1) - Var 2].
(** sources/wadsleyite.c 175-326: conWds, inpMask THIRD, output dr[i][j] *)
Definition Wds_con_dr :=
  [[Num (1#1)];
    [Num (-1#1)]].
(** sources/wadsleyite.c 175-326: x[i] from r is set to zero when it is smaller in absolute value than this number *)
Definition Wds_con_snap : list (nat * Q) := [].
Definition conWds : conv :=
  mkConv "wadsleyite" 2 1 Wds_con_r Wds_con_x Wds_con_dm Wds_con_d2m Wds_con_d3m Wds_con_xr Wds_con_dr Wds_con_snap.

(** sources/wustite.c 175-326: conWus, inpMask SECOND, output r[i] from m *)
Definition Wus_con_r :=
  [Var 20 / Site 0].
(** sources/wustite.c 175-326: conWus, inpMask SECOND, output x[i] from m *)
Definition Wus_con_x :=
  [Var 20 / Site 0;
    Var 21 / Site 0].
(** sources/wustite.c 175-326: conWus, inpMask SECOND, output dm[i][j] *)
Definition Wus_con_dm :=
  [[(Num (1#1) - Var 20 / Site 0) / Site 0;
    (- Var 20) / (Site 0 * Site 0)]].
(** sources/wustite.c 175-326: conWus, inpMask SECOND, output d2m[i][j][k] *)
Definition Wus_con_d2m :=
  [[[Num (2#1) * Var 20 / (Site 0 * Site 0 * Site 0) - Num (1#1) / (Site 0 * Site 0) - Num (1#1) / (Site 0 * Site 0);
    Num (2#1) * Var 20 / (Site 0 * Site 0 * Site 0) - Num (1#1) / (Site 0 * Site 0)];
    [Num (2#1) * Var 20 / (Site 0 * Site 0 * Site 0) - Num (1#1) / (Site 0 * Site 0);
    Num (2#1) * Var 20 / (Site 0 * Site 0 * Site 0)]]].
(** sources/wustite.c 175-326: conWus, inpMask SECOND, output d3m[i][j][k][l] *)
Definition Wus_con_d3m :=
  [[[[Num (-6#1) * Var 20 / (Site 0 * Site 0 * Site 0 * Site 0) + Num (2#1) / (Site 0 * Site 0 * Site 0) + Num (2#1) / (Site 0 * Site 0 * Site 0) + Num (2#1) / (Site 0 * Site 0 * Site 0);
    Num (-6#1) * Var 20 / (Site 0 * Site 0 * Site 0 * Site 0) + Num (2#1) / (Site 0 * Site 0 * Site 0) + Num (2#1) / (Site 0 * Site 0 * Site 0)];
    [Num (-6#1) * Var 20 / (Site 0 * Site 0 * Site 0 * Site 0) + Num (2#1) / (Site 0 * Site 0 * Site 0) + Num (2#1) / (Site 0 * Site 0 * Site 0);
    Num (-6#1) * Var 20 / (Site 0 * Site 0 * Site 0 * Site 0) + Num (2#1) / (Site 0 * Site 0 * Site 0)]];
    [[Num (-6#1) * Var 20 / (Site 0 * Site 0 * Site 0 * Site 0) + Num (2#1) / (Site 0 * Site 0 * Site 0) + Num (2#1) / (Site 0 * Site 0 * Site 0);
    Num (-6#1) * Var 20 / (Site 0 * Site 0 * Site 0 * Site 0) + Num (2#1) / (Site 0 * Site 0 * Site 0)];
    [Num (-6#1) * Var 20 / (Site 0 * Site 0 * Site 0 * Site 0) + Num (2#1) / (Site 0 * Site 0 * Site 0);
    Num (-6#1) * Var 20 / (Site 0 * Site 0 * Site 0 * Site 0)]]]].
(** sources/wustite.c 175-326: conWus, inpMask THIRD, output x[i] from r *)
Definition Wus_con_xr :=
  [Var 2;
    Num (1#1) - Var 2].
(** sources/wustite.c 175-326: conWus, inpMask THIRD, output dr[i][j] *)
Definition Wus_con_dr :=
  [[Num (1#1)];
    [Num (-1#1)]].
(** sources/wustite.c 175-326: x[i] from r is set to zero when it is smaller in absolute value than this number *)
Definition Wus_con_snap : list (nat * Q) := [].
Definition conWus : conv :=
  mkConv "wustite" 2 1 Wus_con_r Wus_con_x Wus_con_dm Wus_con_d2m Wus_con_d3m Wus_con_xr Wus_con_dr Wus_con_snap.

(** sources/ilmenite.c 175-326: conIlm, inpMask SECOND, output r[i] from m *)
Definition Ilm_con_r :=
  [Var 20 / Site 0].
(** sources/ilmenite.c 175-326: conIlm, inpMask SECOND, output x[i] from m *)
Definition Ilm_con_x :=
  [Var 20 / Site 0;
    Var 21 / Site 0].
(** sources/ilmenite.c 175-326: conIlm, inpMask SECOND, output dm[i][j] *)
Definition Ilm_con_dm :=
  [[(Num (1#1) - Var 20 / Site 0) / Site 0;
    (- Var 20) / (Site 0 * Site 0)]].
(** sources/ilmenite.c 175-326: conIlm, inpMask SECOND, output d2m[i][j][k] *)
Definition Ilm_con_d2m :=
  [[[Num (2#1) * Var 20 / (Site 0 * Site 0 * Site 0) - Num (1#1) / (Site 0 * Site 0) - Num (1#1) / (Site 0 * Site 0);
    Num (2#1) * Var 20 / (Site 0 * Site 0 * Site 0) - Num (1#1) / (Site 0 * Site 0)];
    [Num (2#1) * Var 20 / (Site 0 * Site 0 * Site 0) - Num (1#1) / (Site 0 * Site 0);
    Num (2#1) * Var 20 / (Site 0 * Site 0 * Site 0)]]].
(** sources/ilmenite.c 175-326: conIlm, inpMask SECOND, output d3m[i][j][k][l] *)
Definition Ilm_con_d3m :=
  [[[[Num (-6#1) * Var 20 / (Site 0 * Site 0 * Site 0 * Site 0) + Num (2#1) / (Site 0 * Site 0 * Site 0) + Num (2#1) / (Site 0 * Site 0 * Site 0) + Num (2#1) / (Site 0 * Site 0 * Site 0);
    Num (-6#1) * Var 20 / (Site 0 * Site 0 * Site 0 * Site 0) + Num (2#1) / (Site 0 * Site 0 * Site 0) + Num (2#1) / (Site 0 * Site 0 * Site 0)];
    [Num (-6#1) * Var 20 / (Site 0 * Site 0 * Site 0 * Site 0) + Num (2#1) / (Site 0 * Site 0 * Site 0) + Num (2#1) / (Site 0 * Site 0 * Site 0);
    Num (-6#1) * Var 20 / (Site 0 * Site 0 * Site 0 * Site 0) + Num (2#1) / (Site 0 * Site 0 * Site 0)]];
    [[Num (-6#1) * Var 20 / (Site 0 * Site 0 * Site 0 * Site 0) + Num (2#1) / (Site 0 * Site 0 * Site 0) + Num (2#1) / (Site 0 * Site 0 * Site 0);
    Num (-6#1) * Var 20 / (Site 0 * Site 0 * Site 0 * Site 0) + Num (2#1) / (Site 0 * Site 0 * Site 0)];
    [Num (-6#1) * Var 20 / (Site 0 * Site 0 * Site 0 * Site 0) + Num (2#1) / (Site 0 * Site 0 * Site 0);
    Num (-6#1) * Var 20 / (Site 0 * Site 0 * Site 0 * Site 0)]]]].
(** sources/ilmenite.c 175-326: conIlm, inpMask THIRD, output x[i] from r *)
Definition Ilm_con_xr :=
  [Var 2;
    Num (1#1) - Var 2].
(** sources/ilmenite.c 175-326: conIlm, inpMask THIRD, output dr[i][j] *)
Definition Ilm_con_dr :=
  [[Num (1#1)];
    [Num (-1#1)]].
(** sources/ilmenite.c 175-326: x[i] from r is set to zero when it is smaller in absolute value than this number *)
Definition Ilm_con_snap : list (nat * Q) := [].
Definition conIlm : conv :=
  mkConv "ilmenite" 2 1 Ilm_con_r Ilm_con_x Ilm_con_dm Ilm_con_d2m Ilm_con_d3m Ilm_con_xr Ilm_con_dr Ilm_con_snap.

(** sources/alloy-liquid.c 188-339: conAlL, inpMask SECOND, output r[i] from m *)
Definition AlL_con_r :=
  [Var 21 / Site 0].
(** sources/alloy-liquid.c 188-339: conAlL, inpMask SECOND, output x[i] from m *)
Definition AlL_con_x :=
  [Var 20 / Site 0;
    Var 21 / Site 0].
(** sources/alloy-liquid.c 188-339: conAlL, inpMask SECOND, output dm[i][j] *)
Definition AlL_con_dm :=
  [[(- Var 21) / (Site 0 * Site 0);
    (Num (1#1) - Var 21 / Site 0) / Site 0]].
(** sources/alloy-liquid.c 188-339: conAlL, inpMask SECOND, output d2m[i][j][k] *)
Definition AlL_con_d2m :=
  [[[Num (2#1) * Var 21 / (Site 0 * Site 0 * Site 0);
    Num (2#1) * Var 21 / (Site 0 * Site 0 * Site 0) - Num (1#1) / (Site 0 * Site 0)];
    [Num (2#1) * Var 21 / (Site 0 * Site 0 * Site 0) - Num (1#1) / (Site 0 * Site 0);
    Num (2#1) * Var 21 / (Site 0 * Site 0 * Site 0) - Num (1#1) / (Site 0 * Site 0) - Num (1#1) / (Site 0 * Site 0)]]].
(** sources/alloy-liquid.c 188-339: conAlL, inpMask SECOND, output d3m[i][j][k][l] *)
Definition AlL_con_d3m :=
  [[[[Num (-6#1) * Var 21 / (Site 0 * Site 0 * Site 0 * Site 0);
    Num (-6#1) * Var 21 / (Site 0 * Site 0 * Site 0 * Site 0) + Num (2#1) / (Site 0 * Site 0 * Site 0)];
    [Num (-6#1) * Var 21 / (Site 0 * Site 0 * Site 0 * Site 0) + Num (2#1) / (Site 0 * Site 0 * Site 0);
    Num (-6#1) * Var 21 / (Site 0 * Site 0 * Site 0 * Site 0) + Num (2#1) / (Site 0 * Site 0 * Site 0) + Num (2#1) / (Site 0 * Site 0 * Site 0)]];
    [[Num (-6#1) * Var 21 / (Site 0 * Site 0 * Site 0 * Site 0) + Num (2#1) / (Site 0 * Site 0 * Site 0);
    Num (-6#1) * Var 21 / (Site 0 * Site 0 * Site 0 * Site 0) + Num (2#1) / (Site 0 * Site 0 * Site 0) + Num (2#1) / (Site 0 * Site 0 * Site 0)];
    [Num (-6#1) * Var 21 / (Site 0 * Site 0 * Site 0 * Site 0) + Num (2#1) / (Site 0 * Site 0 * Site 0) + Num (2#1) / (Site 0 * Site 0 * Site 0);
    Num (-6#1) * Var 21 / (Site 0 * Site 0 * Site 0 * Site 0) + Num (2#1) / (Site 0 * Site 0 * Site 0) + Num (2#1) / (Site 0 * Site 0 * Site 0) + Num (2#1) / (Site 0 * Site 0 * Site 0)]]]].
(** sources/alloy-liquid.c 188-339: conAlL, inpMask THIRD, output x[i] from r *)
Definition AlL_con_xr :=
  [Num (1#1) - Var 2;
    Var 2].
(** sources/alloy-liquid.c 188-339: conAlL, inpMask THIRD, output dr[i][j] *)
Definition AlL_con_dr :=
  [[Num (-1#1)];
    [Num (1#1)]].
(** sources/alloy-liquid.c 188-339: x[i] from r is set to zero when it is smaller in absolute value than this number *)
Definition AlL_con_snap : list (nat * Q) := [].
Definition conAlL : conv :=
  mkConv "alloy-liquid" 2 1 AlL_con_r AlL_con_x AlL_con_dm AlL_con_d2m AlL_con_d3m AlL_con_xr AlL_con_dr AlL_con_snap.

(** sources/alloy-solid.c 197-348: conAlS, inpMask SECOND, output r[i] from m *)
Definition AlS_con_r :=
  [Var 21 / Site 0].
(** sources/alloy-solid.c 197-348: conAlS, inpMask SECOND, output x[i] from m *)
Definition AlS_con_x :=
  [Var 20 / Site 0;
    Var 21 / Site 0].
(** sources/alloy-solid.c 197-348: conAlS, inpMask SECOND, output dm[i][j] *)
Definition AlS_con_dm :=
  [[(- Var 21) / (Site 0 * Site 0);
    (Num (1#1) - Var 21 / Site 0) / Site 0]].
(** sources/alloy-solid.c 197-348: conAlS, inpMask SECOND, output d2m[i][j][k] *)
Definition AlS_con_d2m :=
  [[[Num (2#1) * Var 21 / (Site 0 * Site 0 * Site 0);
    Num (2#1) * Var 21 / (Site 0 * Site 0 * Site 0) - Num (1#1) / (Site 0 * Site 0)];
    [Num (2#1) * Var 21 / (Site 0 * Site 0 * Site 0) - Num (1#1) / (Site 0 * Site 0);
    Num (2#1) * Var 21 / (Site 0 * Site 0 * Site 0) - Num (1#1) / (Site 0 * Site 0) - Num (1#1) / (Site 0 * Site 0)]]].
(** sources/alloy-solid.c 197-348: conAlS, inpMask SECOND, output d3m[i][j][k][l] *)
Definition AlS_con_d3m :=
  [[[[Num (-6#1) * Var 21 / (Site 0 * Site 0 * Site 0 * Site 0);
    Num (-6#1) * Var 21 / (Site 0 * Site 0 * Site 0 * Site 0) + Num (2#1) / (Site 0 * Site 0 * Site 0)];
    [Num (-6#1) * Var 21 / (Site 0 * Site 0 * Site 0 * Site 0) + Num (2#1) / (Site 0 * Site 0 * Site 0);
    Num (-6#1) * Var 21 / (Site 0 * Site 0 * Site 0 * Site 0) + Num (2#1) / (Site 0 * Site 0 * Site 0) + Num (2#1) / (Site 0 * Site 0 * Site 0)]];
    [[Num (-6#1) * Var 21 / (Site 0 * Site 0 * Site 0 * Site 0) + Num (2#1) / (Site 0 * Site 0 * Site 0);
    Num (-6#1) * Var 21 / (Site 0 * Site 0 * Site 0 * Site 0) + Num (2#1) / (Site 0 * Site 0 * Site 0) + Num (2#1) / (Site 0 * Site 0 * Site 0)];
    [Num (-6#1) * Var 21 / (Site 0 * Site 0 * Site 0 * Site 0) + Num (2#1) / (Site 0 * Site 0 * Site 0) + Num (2#1) / (Site 0 * Site 0 * Site 0);
    Num (-6#1) * Var 21 / (Site 0 * Site 0 * Site 0 * Site 0) + Num (2#1) / (Site 0 * Site 0 * Site 0) + Num (2#1) / (Site 0 * Site 0 * Site 0) + Num (2#1) / (Site 0 * Site 0 * Site 0)]]]].
(** sources/alloy-solid.c 197-348: conAlS, inpMask THIRD, output x[i] from r *)
Definition AlS_con_xr :=
  [Num (1#1) - Var 2;
    Var 2].
(** sources/alloy-solid.c 197-348: conAlS, inpMask THIRD, output dr[i][j] *)
Definition AlS_con_dr :=
  [[Num (-1#1)];
    [Num (1#1)]].
(** sources/alloy-solid.c 197-348: x[i] from r is set to zero when it is smaller in absolute value than this number *)
Definition AlS_con_snap : list (nat * Q) := [].
Definition conAlS : conv :=
  mkConv "alloy-solid" 2 1 AlS_con_r AlS_con_x AlS_con_dm AlS_con_d2m AlS_con_d3m AlS_con_xr AlS_con_dr AlS_con_snap.

(** sources/kalsilite.c 413-596: conKal, inpMask SECOND, output r[i] from m *)
Definition Kal_con_r :=
  [Var 21 / Site 0;
    Var 22 / Site 0;
    Var 23 / Site 0].
(** sources/kalsilite.c 413-596: conKal, inpMask SECOND, output x[i] from m *)
Definition Kal_con_x :=
  [Var 20 / Site 0;
    Var 21 / Site 0;
    Var 22 / Site 0;
    Var 23 / Site 0].
(** sources/kalsilite.c 413-596: conKal, inpMask SECOND, output dm[i][j] *)
Definition Kal_con_dm :=
  [[(- Var 21) / (Site 0 * Site 0);
    (Num (1#1) - Var 21 / Site 0) / Site 0;
    (- Var 21) / (Site 0 * Site 0);
    (- Var 21) / (Site 0 * Site 0)];
    [(- Var 22) / (Site 0 * Site 0);
    (- Var 22) / (Site 0 * Site 0);
    (Num (1#1) - Var 22 / Site 0) / Site 0;
    (- Var 22) / (Site 0 * Site 0)];
    [(- Var 23) / (Site 0 * Site 0);
    (- Var 23) / (Site 0 * Site 0);
    (- Var 23) / (Site 0 * Site 0);
    (Num (1#1) - Var 23 / Site 0) / Site 0]].
(** sources/kalsilite.c 413-596: conKal, inpMask SECOND, output d2m[i][j][k] *)
Definition Kal_con_d2m :=
  [[[Num (2#1) * Var 21 / (Site 0 * Site 0 * Site 0);
    Num (2#1) * Var 21 / (Site 0 * Site 0 * Site 0) - Num (1#1) / (Site 0 * Site 0);
    Num (2#1) * Var 21 / (Site 0 * Site 0 * Site 0);
    Num (2#1) * Var 21 / (Site 0 * Site 0 * Site 0)];
    [Num (2#1) * Var 21 / (Site 0 * Site 0 * Site 0) - Num (1#1) / (Site 0 * Site 0);
    Num (2#1) * Var 21 / (Site 0 * Site 0 * Site 0) - Num (1#1) / (Site 0 * Site 0) - Num (1#1) / (Site 0 * Site 0);
    Num (2#1) * Var 21 / (Site 0 * Site 0 * Site 0) - Num (1#1) / (Site 0 * Site 0);
    Num (2#1) * Var 21 / (Site 0 * Site 0 * Site 0) - Num (1#1) / (Site 0 * Site 0)];
    [Num (2#1) * Var 21 / (Site 0 * Site 0 * Site 0);
    Num (2#1) * Var 21 / (Site 0 * Site 0 * Site 0) - Num (1#1) / (Site 0 * Site 0);
    Num (2#1) * Var 21 / (Site 0 * Site 0 * Site 0);
    Num (2#1) * Var 21 / (Site 0 * Site 0 * Site 0)];
    [Num (2#1) * Var 21 / (Site 0 * Site 0 * Site 0);
    Num (2#1) * Var 21 / (Site 0 * Site 0 * Site 0) - Num (1#1) / (Site 0 * Site 0);
    Num (2#1) * Var 21 / (Site 0 * Site 0 * Site 0);
    Num (2#1) * Var 21 / (Site 0 * Site 0 * Site 0)]];
    [[Num (2#1) * Var 22 / (Site 0 * Site 0 * Site 0);
    Num (2#1) * Var 22 / (Site 0 * Site 0 * Site 0);
    Num (2#1) * Var 22 / (Site 0 * Site 0 * Site 0) - Num (1#1) / (Site 0 * Site 0);
    Num (2#1) * Var 22 / (Site 0 * Site 0 * Site 0)];
    [Num (2#1) * Var 22 / (Site 0 * Site 0 * Site 0);
    Num (2#1) * Var 22 / (Site 0 * Site 0 * Site 0);
    Num (2#1) * Var 22 / (Site 0 * Site 0 * Site 0) - Num (1#1) / (Site 0 * Site 0);
    Num (2#1) * Var 22 / (Site 0 * Site 0 * Site 0)];
    [Num (2#1) * Var 22 / (Site 0 * Site 0 * Site 0) - Num (1#1) / (Site 0 * Site 0);
    Num (2#1) * Var 22 / (Site 0 * Site 0 * Site 0) - Num (1#1) / (Site 0 * Site 0);
    Num (2#1) * Var 22 / (Site 0 * Site 0 * Site 0) - Num (1#1) / (Site 0 * Site 0) - Num (1#1) / (Site 0 * Site 0);
    Num (2#1) * Var 22 / (Site 0 * Site 0 * Site 0) - Num (1#1) / (Site 0 * Site 0)];
    [Num (2#1) * Var 22 / (Site 0 * Site 0 * Site 0);
    Num (2#1) * Var 22 / (Site 0 * Site 0 * Site 0);
    Num (2#1) * Var 22 / (Site 0 * Site 0 * Site 0) - Num (1#1) / (Site 0 * Site 0);
    Num (2#1) * Var 22 / (Site 0 * Site 0 * Site 0)]];
    [[Num (2#1) * Var 23 / (Site 0 * Site 0 * Site 0);
    Num (2#1) * Var 23 / (Site 0 * Site 0 * Site 0);
    Num (2#1) * Var 23 / (Site 0 * Site 0 * Site 0);
    Num (2#1) * Var 23 / (Site 0 * Site 0 * Site 0) - Num (1#1) / (Site 0 * Site 0)];
    [Num (2#1) * Var 23 / (Site 0 * Site 0 * Site 0);
    Num (2#1) * Var 23 / (Site 0 * Site 0 * Site 0);
    Num (2#1) * Var 23 / (Site 0 * Site 0 * Site 0);
    Num (2#1) * Var 23 / (Site 0 * Site 0 * Site 0) - Num (1#1) / (Site 0 * Site 0)];
    [Num (2#1) * Var 23 / (Site 0 * Site 0 * Site 0);
    Num (2#1) * Var 23 / (Site 0 * Site 0 * Site 0);
    Num (2#1) * Var 23 / (Site 0 * Site 0 * Site 0);
    Num (2#1) * Var 23 / (Site 0 * Site 0 * Site 0) - Num (1#1) / (Site 0 * Site 0)];
    [Num (2#1) * Var 23 / (Site 0 * Site 0 * Site 0) - Num (1#1) / (Site 0 * Site 0);
    Num (2#1) * Var 23 / (Site 0 * Site 0 * Site 0) - Num (1#1) / (Site 0 * Site 0);
    Num (2#1) * Var 23 / (Site 0 * Site 0 * Site 0) - Num (1#1) / (Site 0 * Site 0);
    Num (2#1) * Var 23 / (Site 0 * Site 0 * Site 0) - Num (1#1) / (Site 0 * Site 0) - Num (1#1) / (Site 0 * Site 0)]]].
(** sources/kalsilite.c 413-596: conKal, inpMask SECOND, output d3m[i][j][k][l] *)
Definition Kal_con_d3m :=
  [[[[Num (-6#1) * Var 21 / (Site 0 * Site 0 * Site 0 * Site 0);
    Num (-6#1) * Var 21 / (Site 0 * Site 0 * Site 0 * Site 0) + Num (2#1) / (Site 0 * Site 0 * Site 0);
    Num (-6#1) * Var 21 / (Site 0 * Site 0 * Site 0 * Site 0);
    Num (-6#1) * Var 21 / (Site 0 * Site 0 * Site 0 * Site 0)];
    [Num (-6#1) * Var 21 / (Site 0 * Site 0 * Site 0 * Site 0) + Num (2#1) / (Site 0 * Site 0 * Site 0);
    Num (-6#1) * Var 21 / (Site 0 * Site 0 * Site 0 * Site 0) + Num (2#1) / (Site 0 * Site 0 * Site 0) + Num (2#1) / (Site 0 * Site 0 * Site 0);
    Num (-6#1) * Var 21 / (Site 0 * Site 0 * Site 0 * Site 0) + Num (2#1) / (Site 0 * Site 0 * Site 0);
    Num (-6#1) * Var 21 / (Site 0 * Site 0 * Site 0 * Site 0) + Num (2#1) / (Site 0 * Site 0 * Site 0)];
    [Num (-6#1) * Var 21 / (Site 0 * Site 0 * Site 0 * Site 0);
    Num (-6#1) * Var 21 / (Site 0 * Site 0 * Site 0 * Site 0) + Num (2#1) / (Site 0 * Site 0 * Site 0);
    Num (-6#1) * Var 21 / (Site 0 * Site 0 * Site 0 * Site 0);
    Num (-6#1) * Var 21 / (Site 0 * Site 0 * Site 0 * Site 0)];
    [Num (-6#1) * Var 21 / (Site 0 * Site 0 * Site 0 * Site 0);
    Num (-6#1) * Var 21 / (Site 0 * Site 0 * Site 0 * Site 0) + Num (2#1) / (Site 0 * Site 0 * Site 0);
    Num (-6#1) * Var 21 / (Site 0 * Site 0 * Site 0 * Site 0);
    Num (-6#1) * Var 21 / (Site 0 * Site 0 * Site 0 * Site 0)]];
    [[Num (-6#1) * Var 21 / (Site 0 * Site 0 * Site 0 * Site 0) + Num (2#1) / (Site 0 * Site 0 * Site 0);
    Num (-6#1) * Var 21 / (Site 0 * Site 0 * Site 0 * Site 0) + Num (2#1) / (Site 0 * Site 0 * Site 0) + Num (2#1) / (Site 0 * Site 0 * Site 0);
    Num (-6#1) * Var 21 / (Site 0 * Site 0 * Site 0 * Site 0) + Num (2#1) / (Site 0 * Site 0 * Site 0);
    Num (-6#1) * Var 21 / (Site 0 * Site 0 * Site 0 * Site 0) + Num (2#1) / (Site 0 * Site 0 * Site 0)];
    [Num (-6#1) * Var 21 / (Site 0 * Site 0 * Site 0 * Site 0) + Num (2#1) / (Site 0 * Site 0 * Site 0) + Num (2#1) / (Site 0 * Site 0 * Site 0);
    Num (-6#1) * Var 21 / (Site 0 * Site 0 * Site 0 * Site 0) + Num (2#1) / (Site 0 * Site 0 * Site 0) + Num (2#1) / (Site 0 * Site 0 * Site 0) + Num (2#1) / (Site 0 * Site 0 * Site 0);
    Num (-6#1) * Var 21 / (Site 0 * Site 0 * Site 0 * Site 0) + Num (2#1) / (Site 0 * Site 0 * Site 0) + Num (2#1) / (Site 0 * Site 0 * Site 0);
    Num (-6#1) * Var 21 / (Site 0 * Site 0 * Site 0 * Site 0) + Num (2#1) / (Site 0 * Site 0 * Site 0) + Num (2#1) / (Site 0 * Site 0 * Site 0)];
    [Num (-6#1) * Var 21 / (Site 0 * Site 0 * Site 0 * Site 0) + Num (2#1) / (Site 0 * Site 0 * Site 0);
    Num (-6#1) * Var 21 / (Site 0 * Site 0 * Site 0 * Site 0) + Num (2#1) / (Site 0 * Site 0 * Site 0) + Num (2#1) / (Site 0 * Site 0 * Site 0);
    Num (-6#1) * Var 21 / (Site 0 * Site 0 * Site 0 * Site 0) + Num (2#1) / (Site 0 * Site 0 * Site 0);
    Num (-6#1) * Var 21 / (Site 0 * Site 0 * Site 0 * Site 0) + Num (2#1) / (Site 0 * Site 0 * Site 0)];
    [Num (-6#1) * Var 21 / (Site 0 * Site 0 * Site 0 * Site 0) + Num (2#1) / (Site 0 * Site 0 * Site 0);
    Num (-6#1) * Var 21 / (Site 0 * Site 0 * Site 0 * Site 0) + Num (2#1) / (Site 0 * Site 0 * Site 0) + Num (2#1) / (Site 0 * Site 0 * Site 0);
    Num (-6#1) * Var 21 / (Site 0 * Site 0 * Site 0 * Site 0) + Num (2#1) / (Site 0 * Site 0 * Site 0);
    Num (-6#1) * Var 21 / (Site 0 * Site 0 * Site 0 * Site 0) + Num (2#1) / (Site 0 * Site 0 * Site 0)]];
    [[Num (-6#1) * Var 21 / (Site 0 * Site 0 * Site 0 * Site 0);
    Num (-6#1) * Var 21 / (Site 0 * Site 0 * Site 0 * Site 0) + Num (2#1) / (Site 0 * Site 0 * Site 0);
    Num (-6#1) * Var 21 / (Site 0 * Site 0 * Site 0 * Site 0);
    Num (-6#1) * Var 21 / (Site 0 * Site 0 * Site 0 * Site 0)];
    [Num (-6#1) * Var 21 / (Site 0 * Site 0 * Site 0 * Site 0) + Num (2#1) / (Site 0 * Site 0 * Site 0);
    Num (-6#1) * Var 21 / (Site 0 * Site 0 * Site 0 * Site 0) + Num (2#1) / (Site 0 * Site 0 * Site 0) + Num (2#1) / (Site 0 * Site 0 * Site 0);
    Num (-6#1) * Var 21 / (Site 0 * Site 0 * Site 0 * Site 0) + Num (2#1) / (Site 0 * Site 0 * Site 0);
    Num (-6#1) * Var 21 / (Site 0 * Site 0 * Site 0 * Site 0) + Num (2#1) / (Site 0 * Site 0 * Site 0)];
    [Num (-6#1) * Var 21 / (Site 0 * Site 0 * Site 0 * Site 0);
    Num (-6#1) * Var 21 / (Site 0 * Site 0 * Site 0 * Site 0) + Num (2#1) / (Site 0 * Site 0 * Site 0);
    Num (-6#1) * Var 21 / (Site 0 * Site 0 * Site 0 * Site 0);
    Num (-6#1) * Var 21 / (Site 0 * Site 0 * Site 0 * Site 0)];
    [Num (-6#1) * Var 21 / (Site 0 * Site 0 * Site 0 * Site 0);
    Num (-6#1) * Var 21 / (Site 0 * Site 0 * Site 0 * Site 0) + Num (2#1) / (Site 0 * Site 0 * Site 0);
    Num (-6#1) * Var 21 / (Site 0 * Site 0 * Site 0 * Site 0);
    Num (-6#1) * Var 21 / (Site 0 * Site 0 * Site 0 * Site 0)]];
    [[Num (-6#1) * Var 21 / (Site 0 * Site 0 * Site 0 * Site 0);
    Num (-6#1) * Var 21 / (Site 0 * Site 0 * Site 0 * Site 0) + Num (2#1) / (Site 0 * Site 0 * Site 0);
    Num (-6#1) * Var 21 / (Site 0 * Site 0 * Site 0 * Site 0);
    Num (-6#1) * Var 21 / (Site 0 * Site 0 * Site 0 * Site 0)];
    [Num (-6#1) * Var 21 / (Site 0 * Site 0 * Site 0 * Site 0) + Num (2#1) / (Site 0 * Site 0 * Site 0);
    Num (-6#1) * Var 21 / (Site 0 * Site 0 * Site 0 * Site 0) + Num (2#1) / (Site 0 * Site 0 * Site 0) + Num (2#1) / (Site 0 * Site 0 * Site 0);
    Num (-6#1) * Var 21 / (Site 0 * Site 0 * Site 0 * Site 0) + Num (2#1) / (Site 0 * Site 0 * Site 0);
    Num (-6#1) * Var 21 / (Site 0 * Site 0 * Site 0 * Site 0) + Num (2#1) / (Site 0 * Site 0 * Site 0)];
    [Num (-6#1) * Var 21 / (Site 0 * Site 0 * Site 0 * Site 0);
    Num (-6#1) * Var 21 / (Site 0 * Site 0 * Site 0 * Site 0) + Num (2#1) / (Site 0 * Site 0 * Site 0);
    Num (-6#1) * Var 21 / (Site 0 * Site 0 * Site 0 * Site 0);
    Num (-6#1) * Var 21 / (Site 0 * Site 0 * Site 0 * Site 0)];
    [Num (-6#1) * Var 21 / (Site 0 * Site 0 * Site 0 * Site 0);
    Num (-6#1) * Var 21 / (Site 0 * Site 0 * Site 0 * Site 0) + Num (2#1) / (Site 0 * Site 0 * Site 0);
    Num (-6#1) * Var 21 / (Site 0 * Site 0 * Site 0 * Site 0);
    Num (-6#1) * Var 21 / (Site 0 * Site 0 * Site 0 * Site 0)]]];
    [[[Num (-6#1) * Var 22 / (Site 0 * Site 0 * Site 0 * Site 0);
    Num (-6#1) * Var 22 / (Site 0 * Site 0 * Site 0 * Site 0);
    Num (-6#1) * Var 22 / (Site 0 * Site 0 * Site 0 * Site 0) + Num (2#1) / (Site 0 * Site 0 * Site 0);
    Num (-6#1) * Var 22 / (Site 0 * Site 0 * Site 0 * Site 0)];
    [Num (-6#1) * Var 22 / (Site 0 * Site 0 * Site 0 * Site 0);
    Num (-6#1) * Var 22 / (Site 0 * Site 0 * Site 0 * Site 0);
    Num (-6#1) * Var 22 / (Site 0 * Site 0 * Site 0 * Site 0) + Num (2#1) / (Site 0 * Site 0 * Site 0);
    Num (-6#1) * Var 22 / (Site 0 * Site 0 * Site 0 * Site 0)];
    [Num (-6#1) * Var 22 / (Site 0 * Site 0 * Site 0 * Site 0) + Num (2#1) / (Site 0 * Site 0 * Site 0);
    Num (-6#1) * Var 22 / (Site 0 * Site 0 * Site 0 * Site 0) + Num (2#1) / (Site 0 * Site 0 * Site 0);
    Num (-6#1) * Var 22 / (Site 0 * Site 0 * Site 0 * Site 0) + Num (2#1) / (Site 0 * Site 0 * Site 0) + Num (2#1) / (Site 0 * Site 0 * Site 0);
    Num (-6#1) * Var 22 / (Site 0 * Site 0 * Site 0 * Site 0) + Num (2#1) / (Site 0 * Site 0 * Site 0)];
    [Num (-6#1) * Var 22 / (Site 0 * Site 0 * Site 0 * Site 0);
    Num (-6#1) * Var 22 / (Site 0 * Site 0 * Site 0 * Site 0);
    Num (-6#1) * Var 22 / (Site 0 * Site 0 * Site 0 * Site 0) + Num (2#1) / (Site 0 * Site 0 * Site 0);
    Num (-6#1) * Var 22 / (Site 0 * Site 0 * Site 0 * Site 0)]];
    [[Num (-6#1) * Var 22 / (Site 0 * Site 0 * Site 0 * Site 0);
    Num (-6#1) * Var 22 / (Site 0 * Site 0 * Site 0 * Site 0);
    Num (-6#1) * Var 22 / (Site 0 * Site 0 * Site 0 * Site 0) + Num (2#1) / (Site 0 * Site 0 * Site 0);
    Num (-6#1) * Var 22 / (Site 0 * Site 0 * Site 0 * Site 0)];
    [Num (-6#1) * Var 22 / (Site 0 * Site 0 * Site 0 * Site 0);
    Num (-6#1) * Var 22 / (Site 0 * Site 0 * Site 0 * Site 0);
    Num (-6#1) * Var 22 / (Site 0 * Site 0 * Site 0 * Site 0) + Num (2#1) / (Site 0 * Site 0 * Site 0);
    Num (-6#1) * Var 22 / (Site 0 * Site 0 * Site 0 * Site 0)];
    [Num (-6#1) * Var 22 / (Site 0 * Site 0 * Site 0 * Site 0) + Num (2#1) / (Site 0 * Site 0 * Site 0);
    Num (-6#1) * Var 22 / (Site 0 * Site 0 * Site 0 * Site 0) + Num (2#1) / (Site 0 * Site 0 * Site 0);
    Num (-6#1) * Var 22 / (Site 0 * Site 0 * Site 0 * Site 0) + Num (2#1) / (Site 0 * Site 0 * Site 0) + Num (2#1) / (Site 0 * Site 0 * Site 0);
    Num (-6#1) * Var 22 / (Site 0 * Site 0 * Site 0 * Site 0) + Num (2#1) / (Site 0 * Site 0 * Site 0)];
    [Num (-6#1) * Var 22 / (Site 0 * Site 0 * Site 0 * Site 0);
    Num (-6#1) * Var 22 / (Site 0 * Site 0 * Site 0 * Site 0);
    Num (-6#1) * Var 22 / (Site 0 * Site 0 * Site 0 * Site 0) + Num (2#1) / (Site 0 * Site 0 * Site 0);
    Num (-6#1) * Var 22 / (Site 0 * Site 0 * Site 0 * Site 0)]];
    [[Num (-6#1) * Var 22 / (Site 0 * Site 0 * Site 0 * Site 0) + Num (2#1) / (Site 0 * Site 0 * Site 0);
    Num (-6#1) * Var 22 / (Site 0 * Site 0 * Site 0 * Site 0) + Num (2#1) / (Site 0 * Site 0 * Site 0);
    Num (-6#1) * Var 22 / (Site 0 * Site 0 * Site 0 * Site 0) + Num (2#1) / (Site 0 * Site 0 * Site 0) + Num (2#1) / (Site 0 * Site 0 * Site 0);
    Num (-6#1) * Var 22 / (Site 0 * Site 0 * Site 0 * Site 0) + Num (2#1) / (Site 0 * Site 0 * Site 0)];
    [Num (-6#1) * Var 22 / (Site 0 * Site 0 * Site 0 * Site 0) + Num (2#1) / (Site 0 * Site 0 * Site 0);
    Num (-6#1) * Var 22 / (Site 0 * Site 0 * Site 0 * Site 0) + Num (2#1) / (Site 0 * Site 0 * Site 0);
    Num (-6#1) * Var 22 / (Site 0 * Site 0 * Site 0 * Site 0) + Num (2#1) / (Site 0 * Site 0 * Site 0) + Num (2#1) / (Site 0 * Site 0 * Site 0);
    Num (-6#1) * Var 22 / (Site 0 * Site 0 * Site 0 * Site 0) + Num (2#1) / (Site 0 * Site 0 * Site 0)];
    [Num (-6#1) * Var 22 / (Site 0 * Site 0 * Site 0 * Site 0) + Num (2#1) / (Site 0 * Site 0 * Site 0) + Num (2#1) / (Site 0 * Site 0 * Site 0);
    Num (-6#1) * Var 22 / (Site 0 * Site 0 * Site 0 * Site 0) + Num (2#1) / (Site 0 * Site 0 * Site 0) + Num (2#1) / (Site 0 * Site 0 * Site 0);
    Num (-6#1) * Var 22 / (Site 0 * Site 0 * Site 0 * Site 0) + Num (2#1) / (Site 0 * Site 0 * Site 0) + Num (2#1) / (Site 0 * Site 0 * Site 0) + Num (2#1) / (Site 0 * Site 0 * Site 0);
    Num (-6#1) * Var 22 / (Site 0 * Site 0 * Site 0 * Site 0) + Num (2#1) / (Site 0 * Site 0 * Site 0) + Num (2#1) / (Site 0 * Site 0 * Site 0)];
    [Num (-6#1) * Var 22 / (Site 0 * Site 0 * Site 0 * Site 0) + Num (2#1) / (Site 0 * Site 0 * Site 0);
    Num (-6#1) * Var 22 / (Site 0 * Site 0 * Site 0 * Site 0) + Num (2#1) / (Site 0 * Site 0 * Site 0);
    Num (-6#1) * Var 22 / (Site 0 * Site 0 * Site 0 * Site 0) + Num (2#1) / (Site 0 * Site 0 * Site 0) + Num (2#1) / (Site 0 * Site 0 * Site 0);
    Num (-6#1) * Var 22 / (Site 0 * Site 0 * Site 0 * Site 0) + Num (2#1) / (Site 0 * Site 0 * Site 0)]];
    [[Num (-6#1) * Var 22 / (Site 0 * Site 0 * Site 0 * Site 0);
    Num (-6#1) * Var 22 / (Site 0 * Site 0 * Site 0 * Site 0);
    Num (-6#1) * Var 22 / (Site 0 * Site 0 * Site 0 * Site 0) + Num (2#1) / (Site 0 * Site 0 * Site 0);
    Num (-6#1) * Var 22 / (Site 0 * Site 0 * Site 0 * Site 0)];
    [Num (-6#1) * Var 22 / (Site 0 * Site 0 * Site 0 * Site 0);
    Num (-6#1) * Var 22 / (Site 0 * Site 0 * Site 0 * Site 0);
    Num (-6#1) * Var 22 / (Site 0 * Site 0 * Site 0 * Site 0) + Num (2#1) / (Site 0 * Site 0 * Site 0);
    Num (-6#1) * Var 22 / (Site 0 * Site 0 * Site 0 * Site 0)];
    [Num (-6#1) * Var 22 / (Site 0 * Site 0 * Site 0 * Site 0) + Num (2#1) / (Site 0 * Site 0 * Site 0);
    Num (-6#1) * Var 22 / (Site 0 * Site 0 * Site 0 * Site 0) + Num (2#1) / (Site 0 * Site 0 * Site 0);
    Num (-6#1) * Var 22 / (Site 0 * Site 0 * Site 0 * Site 0) + Num (2#1) / (Site 0 * Site 0 * Site 0) + Num (2#1) / (Site 0 * Site 0 * Site 0);
    Num (-6#1) * Var 22 / (Site 0 * Site 0 * Site 0 * Site 0) + Num (2#1) / (Site 0 * Site 0 * Site 0)];
    [Num (-6#1) * Var 22 / (Site 0 * Site 0 * Site 0 * Site 0);
    Num (-6#1) * Var 22 / (Site 0 * Site 0 * Site 0 * Site 0);
    Num (-6#1) * Var 22 / (Site 0 * Site 0 * Site 0 * Site 0) + Num (2#1) / (Site 0 * Site 0 * Site 0);
    Num (-6#1) * Var 22 / (Site 0 * Site 0 * Site 0 * Site 0)]]];
    [[[Num (-6#1) * Var 23 / (Site 0 * Site 0 * Site 0 * Site 0);
    Num (-6#1) * Var 23 / (Site 0 * Site 0 * Site 0 * Site 0);
    Num (-6#1) * Var 23 / (Site 0 * Site 0 * Site 0 * Site 0);
    Num (-6#1) * Var 23 / (Site 0 * Site 0 * Site 0 * Site 0) + Num (2#1) / (Site 0 * Site 0 * Site 0)];
    [Num (-6#1) * Var 23 / (Site 0 * Site 0 * Site 0 * Site 0);
    Num (-6#1) * Var 23 / (Site 0 * Site 0 * Site 0 * Site 0);
    Num (-6#1) * Var 23 / (Site 0 * Site 0 * Site 0 * Site 0);
    Num (-6#1) * Var 23 / (Site 0 * Site 0 * Site 0 * Site 0) + Num (2#1) / (Site 0 * Site 0 * Site 0)];
    [Num (-6#1) * Var 23 / (Site 0 * Site 0 * Site 0 * Site 0);
    Num (-6#1) * Var 23 / (Site 0 * Site 0 * Site 0 * Site 0);
    Num (-6#1) * Var 23 / (Site 0 * Site 0 * Site 0 * Site 0);
    Num (-6#1) * Var 23 / (Site 0 * Site 0 * Site 0 * Site 0) + Num (2#1) / (Site 0 * Site 0 * Site 0)];
    [Num (-6#1) * Var 23 / (Site 0 * Site 0 * Site 0 * Site 0) + Num (2#1) / (Site 0 * Site 0 * Site 0);
    Num (-6#1) * Var 23 / (Site 0 * Site 0 * Site 0 * Site 0) + Num (2#1) / (Site 0 * Site 0 * Site 0);
    Num (-6#1) * Var 23 / (Site 0 * Site 0 * Site 0 * Site 0) + Num (2#1) / (Site 0 * Site 0 * Site 0);
    Num (-6#1) * Var 23 / (Site 0 * Site 0 * Site 0 * Site 0) + Num (2#1) / (Site 0 * Site 0 * Site 0) + Num (2#1) / (Site 0 * Site 0 * Site 0)]];
    [[Num (-6#1) * Var 23 / (Site 0 * Site 0 * Site 0 * Site 0);
    Num (-6#1) * Var 23 / (Site 0 * Site 0 * Site 0 * Site 0);
    Num (-6#1) * Var 23 / (Site 0 * Site 0 * Site 0 * Site 0);
    Num (-6#1) * Var 23 / (Site 0 * Site 0 * Site 0 * Site 0) + Num (2#1) / (Site 0 * Site 0 * Site 0)];
    [Num (-6#1) * Var 23 / (Site 0 * Site 0 * Site 0 * Site 0);
    Num (-6#1) * Var 23 / (Site 0 * Site 0 * Site 0 * Site 0);
    Num (-6#1) * Var 23 / (Site 0 * Site 0 * Site 0 * Site 0);
    Num (-6#1) * Var 23 / (Site 0 * Site 0 * Site 0 * Site 0) + Num (2#1) / (Site 0 * Site 0 * Site 0)];
    [Num (-6#1) * Var 23 / (Site 0 * Site 0 * Site 0 * Site 0);
    Num (-6#1) * Var 23 / (Site 0 * Site 0 * Site 0 * Site 0);
    Num (-6#1) * Var 23 / (Site 0 * Site 0 * Site 0 * Site 0);
    Num (-6#1) * Var 23 / (Site 0 * Site 0 * Site 0 * Site 0) + Num (2#1) / (Site 0 * Site 0 * Site 0)];
    [Num (-6#1) * Var 23 / (Site 0 * Site 0 * Site 0 * Site 0) + Num (2#1) / (Site 0 * Site 0 * Site 0);
    Num (-6#1) * Var 23 / (Site 0 * Site 0 * Site 0 * Site 0) + Num (2#1) / (Site 0 * Site 0 * Site 0);
    Num (-6#1) * Var 23 / (Site 0 * Site 0 * Site 0 * Site 0) + Num (2#1) / (Site 0 * Site 0 * Site 0);
    Num (-6#1) * Var 23 / (Site 0 * Site 0 * Site 0 * Site 0) + Num (2#1) / (Site 0 * Site 0 * Site 0) + Num (2#1) / (Site 0 * Site 0 * Site 0)]];
    [[Num (-6#1) * Var 23 / (Site 0 * Site 0 * Site 0 * Site 0);
    Num (-6#1) * Var 23 / (Site 0 * Site 0 * Site 0 * Site 0);
    Num (-6#1) * Var 23 / (Site 0 * Site 0 * Site 0 * Site 0);
    Num (-6#1) * Var 23 / (Site 0 * Site 0 * Site 0 * Site 0) + Num (2#1) / (Site 0 * Site 0 * Site 0)];
    [Num (-6#1) * Var 23 / (Site 0 * Site 0 * Site 0 * Site 0);
    Num (-6#1) * Var 23 / (Site 0 * Site 0 * Site 0 * Site 0);
    Num (-6#1) * Var 23 / (Site 0 * Site 0 * Site 0 * Site 0);
    Num (-6#1) * Var 23 / (Site 0 * Site 0 * Site 0 * Site 0) + Num (2#1) / (Site 0 * Site 0 * Site 0)];
    [Num (-6#1) * Var 23 / (Site 0 * Site 0 * Site 0 * Site 0);
    Num (-6#1) * Var 23 / (Site 0 * Site 0 * Site 0 * Site 0);
    Num (-6#1) * Var 23 / (Site 0 * Site 0 * Site 0 * Site 0);
    Num (-6#1) * Var 23 / (Site 0 * Site 0 * Site 0 * Site 0) + Num (2#1) / (Site 0 * Site 0 * Site 0)];
    [Num (-6#1) * Var 23 / (Site 0 * Site 0 * Site 0 * Site 0) + Num (2#1) / (Site 0 * Site 0 * Site 0);
    Num (-6#1) * Var 23 / (Site 0 * Site 0 * Site 0 * Site 0) + Num (2#1) / (Site 0 * Site 0 * Site 0);
    Num (-6#1) * Var 23 / (Site 0 * Site 0 * Site 0 * Site 0) + Num (2#1) / (Site 0 * Site 0 * Site 0);
    Num (-6#1) * Var 23 / (Site 0 * Site 0 * Site 0 * Site 0) + Num (2#1) / (Site 0 * Site 0 * Site 0) + Num (2#1) / (Site 0 * Site 0 * Site 0)]];
    [[Num (-6#1) * Var 23 / (Site 0 * Site 0 * Site 0 * Site 0) + Num (2#1) / (Site 0 * Site 0 * Site 0);
    Num (-6#1) * Var 23 / (Site 0 * Site 0 * Site 0 * Site 0) + Num (2#1) / (Site 0 * Site 0 * Site 0);
    Num (-6#1) * Var 23 / (Site 0 * Site 0 * Site 0 * Site 0) + Num (2#1) / (Site 0 * Site 0 * Site 0);
    Num (-6#1) * Var 23 / (Site 0 * Site 0 * Site 0 * Site 0) + Num (2#1) / (Site 0 * Site 0 * Site 0) + Num (2#1) / (Site 0 * Site 0 * Site 0)];
    [Num (-6#1) * Var 23 / (Site 0 * Site 0 * Site 0 * Site 0) + Num (2#1) / (Site 0 * Site 0 * Site 0);
    Num (-6#1) * Var 23 / (Site 0 * Site 0 * Site 0 * Site 0) + Num (2#1) / (Site 0 * Site 0 * Site 0);
    Num (-6#1) * Var 23 / (Site 0 * Site 0 * Site 0 * Site 0) + Num (2#1) / (Site 0 * Site 0 * Site 0);
    Num (-6#1) * Var 23 / (Site 0 * Site 0 * Site 0 * Site 0) + Num (2#1) / (Site 0 * Site 0 * Site 0) + Num (2#1) / (Site 0 * Site 0 * Site 0)];
    [Num (-6#1) * Var 23 / (Site 0 * Site 0 * Site 0 * Site 0) + Num (2#1) / (Site 0 * Site 0 * Site 0);
    Num (-6#1) * Var 23 / (Site 0 * Site 0 * Site 0 * Site 0) + Num (2#1) / (Site 0 * Site 0 * Site 0);
    Num (-6#1) * Var 23 / (Site 0 * Site 0 * Site 0 * Site 0) + Num (2#1) / (Site 0 * Site 0 * Site 0);
    Num (-6#1) * Var 23 / (Site 0 * Site 0 * Site 0 * Site 0) + Num (2#1) / (Site 0 * Site 0 * Site 0) + Num (2#1) / (Site 0 * Site 0 * Site 0)];
    [Num (-6#1) * Var 23 / (Site 0 * Site 0 * Site 0 * Site 0) + Num (2#1) / (Site 0 * Site 0 * Site 0) + Num (2#1) / (Site 0 * Site 0 * Site 0);
    Num (-6#1) * Var 23 / (Site 0 * Site 0 * Site 0 * Site 0) + Num (2#1) / (Site 0 * Site 0 * Site 0) + Num (2#1) / (Site 0 * Site 0 * Site 0);
    Num (-6#1) * Var 23 / (Site 0 * Site 0 * Site 0 * Site 0) + Num (2#1) / (Site 0 * Site 0 * Site 0) + Num (2#1) / (Site 0 * Site 0 * Site 0);
    Num (-6#1) * Var 23 / (Site 0 * Site 0 * Site 0 * Site 0) + Num (2#1) / (Site 0 * Site 0 * Site 0) + Num (2#1) / (Site 0 * Site 0 * Site 0) + Num (2#1) / (Site 0 * Site 0 * Site 0)]]]].
(** sources/kalsilite.c 413-596: conKal, inpMask THIRD, output x[i] from r *)
Definition Kal_con_xr :=
  [Num (1#1) - Var 2 - Var 3 - Var 4;
    Var 2;
    Var 3;
    Var 4].
(** sources/kalsilite.c 413-596: conKal, inpMask THIRD, output dr[i][j] *)
Definition Kal_con_dr :=
  [[Num (-1#1);
    Num (-1#1);
    Num (-1#1)];
    [Num (1#1);
    Num (0#1);
    Num (0#1)];
    [Num (0#1);
    Num (1#1);
    Num (0#1)];
    [Num (0#1);
    Num (0#1);
    Num (1#1)]].
(** sources/kalsilite.c 413-596: x[i] from r is set to zero when it is smaller in absolute value than this number *)
Definition Kal_con_snap : list (nat * Q) := [].
Definition conKal : conv :=
  mkConv "kalsilite" 4 3 Kal_con_r Kal_con_x Kal_con_dm Kal_con_d2m Kal_con_d3m Kal_con_xr Kal_con_dr Kal_con_snap.

(** sources/amphibole.c 1508-1705: conAph, inpMask SECOND, output r[i] from m *)
Definition Aph_con_r :=
  [Num (2#1) * Var 21 / Site 0 - Num (1#1);
    Var 22 / Site 0].
(** sources/amphibole.c 1508-1705: conAph, inpMask SECOND, output x[i] from m *)
Definition Aph_con_x :=
  [Var 20 / Site 0;
    Var 21 / Site 0;
    Var 22 / Site 0].
(** sources/amphibole.c 1508-1705: conAph, inpMask SECOND, output dm[i][j] *)
Definition Aph_con_dm :=
  [[Num (-2#1) * Var 21 / (Site 0 * Site 0);
    Num (-2#1) * Var 21 / (Site 0 * Site 0) + Num (2#1) / Site 0;
    Num (-2#1) * Var 21 / (Site 0 * Site 0)];
    [(- Var 22) / (Site 0 * Site 0);
    (- Var 22) / (Site 0 * Site 0);
    (- Var 22) / (Site 0 * Site 0) + Num (1#1) / Site 0]].
(** sources/amphibole.c 1508-1705: conAph, inpMask SECOND, output d2m[i][j][k] *)
Definition Aph_con_d2m :=
  [[[Num (4#1) * Var 21 / (Site 0 * Site 0 * Site 0);
    Num (4#1) * Var 21 / (Site 0 * Site 0 * Site 0) - Num (2#1) / (Site 0 * Site 0);
    Num (4#1) * Var 21 / (Site 0 * Site 0 * Site 0)];
    [Num (4#1) * Var 21 / (Site 0 * Site 0 * Site 0) - Num (2#1) / (Site 0 * Site 0);
    Num (4#1) * Var 21 / (Site 0 * Site 0 * Site 0) - Num (2#1) / (Site 0 * Site 0) - Num (2#1) / (Site 0 * Site 0);
    Num (4#1) * Var 21 / (Site 0 * Site 0 * Site 0) - Num (2#1) / (Site 0 * Site 0)];
    [Num (4#1) * Var 21 / (Site 0 * Site 0 * Site 0);
    Num (4#1) * Var 21 / (Site 0 * Site 0 * Site 0) - Num (2#1) / (Site 0 * Site 0);
    Num (4#1) * Var 21 / (Site 0 * Site 0 * Site 0)]];
    [[Num (2#1) * Var 22 / (Site 0 * Site 0 * Site 0);
    Num (2#1) * Var 22 / (Site 0 * Site 0 * Site 0);
    Num (2#1) * Var 22 / (Site 0 * Site 0 * Site 0) - Num (1#1) / (Site 0 * Site 0)];
    [Num (2#1) * Var 22 / (Site 0 * Site 0 * Site 0);
    Num (2#1) * Var 22 / (Site 0 * Site 0 * Site 0);
    Num (2#1) * Var 22 / (Site 0 * Site 0 * Site 0) - Num (1#1) / (Site 0 * Site 0)];
    [Num (2#1) * Var 22 / (Site 0 * Site 0 * Site 0) - Num (1#1) / (Site 0 * Site 0);
    Num (2#1) * Var 22 / (Site 0 * Site 0 * Site 0) - Num (1#1) / (Site 0 * Site 0);
    Num (2#1) * Var 22 / (Site 0 * Site 0 * Site 0) - Num (1#1) / (Site 0 * Site 0) - Num (1#1) / (Site 0 * Site 0)]]].
(** sources/amphibole.c 1508-1705: conAph, inpMask SECOND, output d3m[i][j][k][l] *)
Definition Aph_con_d3m :=
  [[[[Num (-12#1) * Var 21 / (Site 0 * Site 0 * Site 0 * Site 0);
    Num (-12#1) * Var 21 / (Site 0 * Site 0 * Site 0 * Site 0) + Num (4#1) / (Site 0 * Site 0 * Site 0);
    Num (-12#1) * Var 21 / (Site 0 * Site 0 * Site 0 * Site 0)];
    [Num (-12#1) * Var 21 / (Site 0 * Site 0 * Site 0 * Site 0) + Num (4#1) / (Site 0 * Site 0 * Site 0);
    Num (-12#1) * Var 21 / (Site 0 * Site 0 * Site 0 * Site 0) + Num (4#1) / (Site 0 * Site 0 * Site 0) + Num (4#1) / (Site 0 * Site 0 * Site 0);
    Num (-12#1) * Var 21 / (Site 0 * Site 0 * Site 0 * Site 0) + Num (4#1) / (Site 0 * Site 0 * Site 0)];
    [Num (-12#1) * Var 21 / (Site 0 * Site 0 * Site 0 * Site 0);
    Num (-12#1) * Var 21 / (Site 0 * Site 0 * Site 0 * Site 0) + Num (4#1) / (Site 0 * Site 0 * Site 0);
    Num (-12#1) * Var 21 / (Site 0 * Site 0 * Site 0 * Site 0)]];
    [[Num (-12#1) * Var 21 / (Site 0 * Site 0 * Site 0 * Site 0) + Num (4#1) / (Site 0 * Site 0 * Site 0);
    Num (-12#1) * Var 21 / (Site 0 * Site 0 * Site 0 * Site 0) + Num (4#1) / (Site 0 * Site 0 * Site 0) + Num (4#1) / (Site 0 * Site 0 * Site 0);
    Num (-12#1) * Var 21 / (Site 0 * Site 0 * Site 0 * Site 0) + Num (4#1) / (Site 0 * Site 0 * Site 0)];
    [Num (-12#1) * Var 21 / (Site 0 * Site 0 * Site 0 * Site 0) + Num (4#1) / (Site 0 * Site 0 * Site 0) + Num (4#1) / (Site 0 * Site 0 * Site 0);
    Num (-12#1) * Var 21 / (Site 0 * Site 0 * Site 0 * Site 0) + Num (4#1) / (Site 0 * Site 0 * Site 0) + Num (4#1) / (Site 0 * Site 0 * Site 0) + Num (4#1) / (Site 0 * Site 0 * Site 0);
    Num (-12#1) * Var 21 / (Site 0 * Site 0 * Site 0 * Site 0) + Num (4#1) / (Site 0 * Site 0 * Site 0) + Num (4#1) / (Site 0 * Site 0 * Site 0)];
    [Num (-12#1) * Var 21 / (Site 0 * Site 0 * Site 0 * Site 0) + Num (4#1) / (Site 0 * Site 0 * Site 0);
    Num (-12#1) * Var 21 / (Site 0 * Site 0 * Site 0 * Site 0) + Num (4#1) / (Site 0 * Site 0 * Site 0) + Num (4#1) / (Site 0 * Site 0 * Site 0);
    Num (-12#1) * Var 21 / (Site 0 * Site 0 * Site 0 * Site 0) + Num (4#1) / (Site 0 * Site 0 * Site 0)]];
    [[Num (-12#1) * Var 21 / (Site 0 * Site 0 * Site 0 * Site 0);
    Num (-12#1) * Var 21 / (Site 0 * Site 0 * Site 0 * Site 0) + Num (4#1) / (Site 0 * Site 0 * Site 0);
    Num (-12#1) * Var 21 / (Site 0 * Site 0 * Site 0 * Site 0)];
    [Num (-12#1) * Var 21 / (Site 0 * Site 0 * Site 0 * Site 0) + Num (4#1) / (Site 0 * Site 0 * Site 0);
    Num (-12#1) * Var 21 / (Site 0 * Site 0 * Site 0 * Site 0) + Num (4#1) / (Site 0 * Site 0 * Site 0) + Num (4#1) / (Site 0 * Site 0 * Site 0);
    Num (-12#1) * Var 21 / (Site 0 * Site 0 * Site 0 * Site 0) + Num (4#1) / (Site 0 * Site 0 * Site 0)];
    [Num (-12#1) * Var 21 / (Site 0 * Site 0 * Site 0 * Site 0);
    Num (-12#1) * Var 21 / (Site 0 * Site 0 * Site 0 * Site 0) + Num (4#1) / (Site 0 * Site 0 * Site 0);
    Num (-12#1) * Var 21 / (Site 0 * Site 0 * Site 0 * Site 0)]]];
    [[[Num (-6#1) * Var 22 / (Site 0 * Site 0 * Site 0 * Site 0);
    Num (-6#1) * Var 22 / (Site 0 * Site 0 * Site 0 * Site 0);
    Num (-6#1) * Var 22 / (Site 0 * Site 0 * Site 0 * Site 0) + Num (2#1) / (Site 0 * Site 0 * Site 0)];
    [Num (-6#1) * Var 22 / (Site 0 * Site 0 * Site 0 * Site 0);
    Num (-6#1) * Var 22 / (Site 0 * Site 0 * Site 0 * Site 0);
    Num (-6#1) * Var 22 / (Site 0 * Site 0 * Site 0 * Site 0) + Num (2#1) / (Site 0 * Site 0 * Site 0)];
    [Num (-6#1) * Var 22 / (Site 0 * Site 0 * Site 0 * Site 0) + Num (2#1) / (Site 0 * Site 0 * Site 0);
    Num (-6#1) * Var 22 / (Site 0 * Site 0 * Site 0 * Site 0) + Num (2#1) / (Site 0 * Site 0 * Site 0);
    Num (-6#1) * Var 22 / (Site 0 * Site 0 * Site 0 * Site 0) + Num (2#1) / (Site 0 * Site 0 * Site 0) + Num (2#1) / (Site 0 * Site 0 * Site 0)]];
    [[Num (-6#1) * Var 22 / (Site 0 * Site 0 * Site 0 * Site 0);
    Num (-6#1) * Var 22 / (Site 0 * Site 0 * Site 0 * Site 0);
    Num (-6#1) * Var 22 / (Site 0 * Site 0 * Site 0 * Site 0) + Num (2#1) / (Site 0 * Site 0 * Site 0)];
    [Num (-6#1) * Var 22 / (Site 0 * Site 0 * Site 0 * Site 0);
    Num (-6#1) * Var 22 / (Site 0 * Site 0 * Site 0 * Site 0);
    Num (-6#1) * Var 22 / (Site 0 * Site 0 * Site 0 * Site 0) + Num (2#1) / (Site 0 * Site 0 * Site 0)];
    [Num (-6#1) * Var 22 / (Site 0 * Site 0 * Site 0 * Site 0) + Num (2#1) / (Site 0 * Site 0 * Site 0);
    Num (-6#1) * Var 22 / (Site 0 * Site 0 * Site 0 * Site 0) + Num (2#1) / (Site 0 * Site 0 * Site 0);
    Num (-6#1) * Var 22 / (Site 0 * Site 0 * Site 0 * Site 0) + Num (2#1) / (Site 0 * Site 0 * Site 0) + Num (2#1) / (Site 0 * Site 0 * Site 0)]];
    [[Num (-6#1) * Var 22 / (Site 0 * Site 0 * Site 0 * Site 0) + Num (2#1) / (Site 0 * Site 0 * Site 0);
    Num (-6#1) * Var 22 / (Site 0 * Site 0 * Site 0 * Site 0) + Num (2#1) / (Site 0 * Site 0 * Site 0);
    Num (-6#1) * Var 22 / (Site 0 * Site 0 * Site 0 * Site 0) + Num (2#1) / (Site 0 * Site 0 * Site 0) + Num (2#1) / (Site 0 * Site 0 * Site 0)];
    [Num (-6#1) * Var 22 / (Site 0 * Site 0 * Site 0 * Site 0) + Num (2#1) / (Site 0 * Site 0 * Site 0);
    Num (-6#1) * Var 22 / (Site 0 * Site 0 * Site 0 * Site 0) + Num (2#1) / (Site 0 * Site 0 * Site 0);
    Num (-6#1) * Var 22 / (Site 0 * Site 0 * Site 0 * Site 0) + Num (2#1) / (Site 0 * Site 0 * Site 0) + Num (2#1) / (Site 0 * Site 0 * Site 0)];
    [Num (-6#1) * Var 22 / (Site 0 * Site 0 * Site 0 * Site 0) + Num (2#1) / (Site 0 * Site 0 * Site 0) + Num (2#1) / (Site 0 * Site 0 * Site 0);
    Num (-6#1) * Var 22 / (Site 0 * Site 0 * Site 0 * Site 0) + Num (2#1) / (Site 0 * Site 0 * Site 0) + Num (2#1) / (Site 0 * Site 0 * Site 0);
    Num (-6#1) * Var 22 / (Site 0 * Site 0 * Site 0 * Site 0) + Num (2#1) / (Site 0 * Site 0 * Site 0) + Num (2#1) / (Site 0 * Site 0 * Site 0) + Num (2#1) / (Site 0 * Site 0 * Site 0)]]]].
(** sources/amphibole.c 1508-1705: conAph, inpMask THIRD, output x[i] from r *)
Definition Aph_con_xr :=
  [Num (1#1) - (Num (1#1) + Var 2) / Num (2#1) - Var 3;
    (Num (1#1) + Var 2) / Num (2#1);
    Var 3].
(** sources/amphibole.c 1508-1705: conAph, inpMask THIRD, output dr[i][j] *)
Definition Aph_con_dr :=
  [[Num (-1#2);
    Num (-1#1)];
    [Num (1#2);
    Num (0#1)];
    [Num (0#1);
    Num (1#1)]].
(** sources/amphibole.c 1508-1705: x[i] from r is set to zero when it is smaller in absolute value than this number *)
Definition Aph_con_snap : list (nat * Q) := [].
Definition conAph : conv :=
  mkConv "amphibole" 3 2 Aph_con_r Aph_con_x Aph_con_dm Aph_con_d2m Aph_con_d3m Aph_con_xr Aph_con_dr Aph_con_snap.

(** sources/biotiteTaj.c 945-1126: conTaj, inpMask SECOND, output r[i] from m *)
Definition Taj_con_r :=
  [Var 21 / Site 0;
    Var 22 / Site 0;
    Var 23 / Site 0;
    Var 24 / Site 0].
(** sources/biotiteTaj.c 945-1126: conTaj, inpMask SECOND, output x[i] from m *)
Definition Taj_con_x :=
  [Var 20 / Site 0;
    Var 21 / Site 0;
    Var 22 / Site 0;
    Var 23 / Site 0;
    Var 24 / Site 0].
(** sources/biotiteTaj.c 945-1126: conTaj, inpMask SECOND, output dm[i][j] *)
Definition Taj_con_dm :=
  [[(- Var 21) / (Site 0 * Site 0);
    (Num (1#1) - Var 21 / Site 0) / Site 0;
    (- Var 21) / (Site 0 * Site 0);
    (- Var 21) / (Site 0 * Site 0);
    (- Var 21) / (Site 0 * Site 0)];
    [(- Var 22) / (Site 0 * Site 0);
    (- Var 22) / (Site 0 * Site 0);
    (Num (1#1) - Var 22 / Site 0) / Site 0;
    (- Var 22) / (Site 0 * Site 0);
    (- Var 22) / (Site 0 * Site 0)];
    [(- Var 23) / (Site 0 * Site 0);
    (- Var 23) / (Site 0 * Site 0);
    (- Var 23) / (Site 0 * Site 0);
    (Num (1#1) - Var 23 / Site 0) / Site 0;
    (- Var 23) / (Site 0 * Site 0)];
    [(- Var 24) / (Site 0 * Site 0);
    (- Var 24) / (Site 0 * Site 0);
    (- Var 24) / (Site 0 * Site 0);
    (- Var 24) / (Site 0 * Site 0);
    (Num (1#1) - Var 24 / Site 0) / Site 0]].
(** sources/biotiteTaj.c 945-1126: conTaj, inpMask SECOND, output d2m[i][j][k] *)
Definition Taj_con_d2m :=
  [[[Num (2#1) * Var 21 / (Site 0 * Site 0 * Site 0);
    Num (2#1) * Var 21 / (Site 0 * Site 0 * Site 0) - Num (1#1) / (Site 0 * Site 0);
    Num (2#1) * Var 21 / (Site 0 * Site 0 * Site 0);
    Num (2#1) * Var 21 / (Site 0 * Site 0 * Site 0);
    Num (2#1) * Var 21 / (Site 0 * Site 0 * Site 0)];
    [Num (2#1) * Var 21 / (Site 0 * Site 0 * Site 0) - Num (1#1) / (Site 0 * Site 0);
    Num (2#1) * Var 21 / (Site 0 * Site 0 * Site 0) - Num (1#1) / (Site 0 * Site 0) - Num (1#1) / (Site 0 * Site 0);
    Num (2#1) * Var 21 / (Site 0 * Site 0 * Site 0) - Num (1#1) / (Site 0 * Site 0);
    Num (2#1) * Var 21 / (Site 0 * Site 0 * Site 0) - Num (1#1) / (Site 0 * Site 0);
    Num (2#1) * Var 21 / (Site 0 * Site 0 * Site 0) - Num (1#1) / (Site 0 * Site 0)];
    [Num (2#1) * Var 21 / (Site 0 * Site 0 * Site 0);
    Num (2#1) * Var 21 / (Site 0 * Site 0 * Site 0) - Num (1#1) / (Site 0 * Site 0);
    Num (2#1) * Var 21 / (Site 0 * Site 0 * Site 0);
    Num (2#1) * Var 21 / (Site 0 * Site 0 * Site 0);
    Num (2#1) * Var 21 / (Site 0 * Site 0 * Site 0)];
    [Num (2#1) * Var 21 / (Site 0 * Site 0 * Site 0);
    Num (2#1) * Var 21 / (Site 0 * Site 0 * Site 0) - Num (1#1) / (Site 0 * Site 0);
    Num (2#1) * Var 21 / (Site 0 * Site 0 * Site 0);
    Num (2#1) * Var 21 / (Site 0 * Site 0 * Site 0);
    Num (2#1) * Var 21 / (Site 0 * Site 0 * Site 0)];
    [Num (2#1) * Var 21 / (Site 0 * Site 0 * Site 0);
    Num (2#1) * Var 21 / (Site 0 * Site 0 * Site 0) - Num (1#1) / (Site 0 * Site 0);
    Num (2#1) * Var 21 / (Site 0 * Site 0 * Site 0);
    Num (2#1) * Var 21 / (Site 0 * Site 0 * Site 0);
    Num (2#1) * Var 21 / (Site 0 * Site 0 * Site 0)]];
    [[Num (2#1) * Var 22 / (Site 0 * Site 0 * Site 0);
    Num (2#1) * Var 22 / (Site 0 * Site 0 * Site 0);
    Num (2#1) * Var 22 / (Site 0 * Site 0 * Site 0) - Num (1#1) / (Site 0 * Site 0);
    Num (2#1) * Var 22 / (Site 0 * Site 0 * Site 0);
    Num (2#1) * Var 22 / (Site 0 * Site 0 * Site 0)];
    [Num (2#1) * Var 22 / (Site 0 * Site 0 * Site 0);
    Num (2#1) * Var 22 / (Site 0 * Site 0 * Site 0);
    Num (2#1) * Var 22 / (Site 0 * Site 0 * Site 0) - Num (1#1) / (Site 0 * Site 0);
    Num (2#1) * Var 22 / (Site 0 * Site 0 * Site 0);
    Num (2#1) * Var 22 / (Site 0 * Site 0 * Site 0)];
    [Num (2#1) * Var 22 / (Site 0 * Site 0 * Site 0) - Num (1#1) / (Site 0 * Site 0);
    Num (2#1) * Var 22 / (Site 0 * Site 0 * Site 0) - Num (1#1) / (Site 0 * Site 0);
    Num (2#1) * Var 22 / (Site 0 * Site 0 * Site 0) - Num (1#1) / (Site 0 * Site 0) - Num (1#1) / (Site 0 * Site 0);
    Num (2#1) * Var 22 / (Site 0 * Site 0 * Site 0) - Num (1#1) / (Site 0 * Site 0);
    Num (2#1) * Var 22 / (Site 0 * Site 0 * Site 0) - Num (1#1) / (Site 0 * Site 0)];
    [Num (2#1) * Var 22 / (Site 0 * Site 0 * Site 0);
    Num (2#1) * Var 22 / (Site 0 * Site 0 * Site 0);
    Num (2#1) * Var 22 / (Site 0 * Site 0 * Site 0) - Num (1#1) / (Site 0 * Site 0);
    Num (2#1) * Var 22 / (Site 0 * Site 0 * Site 0);
    Num (2#1) * Var 22 / (Site 0 * Site 0 * Site 0)];
    [Num (2#1) * Var 22 / (Site 0 * Site 0 * Site 0);
    Num (2#1) * Var 22 / (Site 0 * Site 0 * Site 0);
    Num (2#1) * Var 22 / (Site 0 * Site 0 * Site 0) - Num (1#1) / (Site 0 * Site 0);
    Num (2#1) * Var 22 / (Site 0 * Site 0 * Site 0);
    Num (2#1) * Var 22 / (Site 0 * Site 0 * Site 0)]];
    [[Num (2#1) * Var 23 / (Site 0 * Site 0 * Site 0);
    Num (2#1) * Var 23 / (Site 0 * Site 0 * Site 0);
    Num (2#1) * Var 23 / (Site 0 * Site 0 * Site 0);
    Num (2#1) * Var 23 / (Site 0 * Site 0 * Site 0) - Num (1#1) / (Site 0 * Site 0);
    Num (2#1) * Var 23 / (Site 0 * Site 0 * Site 0)];
    [Num (2#1) * Var 23 / (Site 0 * Site 0 * Site 0);
    Num (2#1) * Var 23 / (Site 0 * Site 0 * Site 0);
    Num (2#1) * Var 23 / (Site 0 * Site 0 * Site 0);
    Num (2#1) * Var 23 / (Site 0 * Site 0 * Site 0) - Num (1#1) / (Site 0 * Site 0);
    Num (2#1) * Var 23 / (Site 0 * Site 0 * Site 0)];
    [Num (2#1) * Var 23 / (Site 0 * Site 0 * Site 0);
    Num (2#1) * Var 23 / (Site 0 * Site 0 * Site 0);
    Num (2#1) * Var 23 / (Site 0 * Site 0 * Site 0);
    Num (2#1) * Var 23 / (Site 0 * Site 0 * Site 0) - Num (1#1) / (Site 0 * Site 0);
    Num (2#1) * Var 23 / (Site 0 * Site 0 * Site 0)];
    [Num (2#1) * Var 23 / (Site 0 * Site 0 * Site 0) - Num (1#1) / (Site 0 * Site 0);
    Num (2#1) * Var 23 / (Site 0 * Site 0 * Site 0) - Num (1#1) / (Site 0 * Site 0);
    Num (2#1) * Var 23 / (Site 0 * Site 0 * Site 0) - Num (1#1) / (Site 0 * Site 0);
    Num (2#1) * Var 23 / (Site 0 * Site 0 * Site 0) - Num (1#1) / (Site 0 * Site 0) - Num (1#1) / (Site 0 * Site 0);
    Num (2#1) * Var 23 / (Site 0 * Site 0 * Site 0) - Num (1#1) / (Site 0 * Site 0)];
    [Num (2#1) * Var 23 / (Site 0 * Site 0 * Site 0);
    Num (2#1) * Var 23 / (Site 0 * Site 0 * Site 0);
    Num (2#1) * Var 23 / (Site 0 * Site 0 * Site 0);
    Num (2#1) * Var 23 / (Site 0 * Site 0 * Site 0) - Num (1#1) / (Site 0 * Site 0);
    Num (2#1) * Var 23 / (Site 0 * Site 0 * Site 0)]];
    [[Num (2#1) * Var 24 / (Site 0 * Site 0 * Site 0);
    Num (2#1) * Var 24 / (Site 0 * Site 0 * Site 0);
    Num (2#1) * Var 24 / (Site 0 * Site 0 * Site 0);
    Num (2#1) * Var 24 / (Site 0 * Site 0 * Site 0);
    Num (2#1) * Var 24 / (Site 0 * Site 0 * Site 0) - Num (1#1) / (Site 0 * Site 0)];
    [Num (2#1) * Var 24 / (Site 0 * Site 0 * Site 0);
    Num (2#1) * Var 24 / (Site 0 * Site 0 * Site 0);
    Num (2#1) * Var 24 / (Site 0 * Site 0 * Site 0);
    Num (2#1) * Var 24 / (Site 0 * Site 0 * Site 0);
    Num (2#1) * Var 24 / (Site 0 * Site 0 * Site 0) - Num (1#1) / (Site 0 * Site 0)];
    [Num (2#1) * Var 24 / (Site 0 * Site 0 * Site 0);
    Num (2#1) * Var 24 / (Site 0 * Site 0 * Site 0);
    Num (2#1) * Var 24 / (Site 0 * Site 0 * Site 0);
    Num (2#1) * Var 24 / (Site 0 * Site 0 * Site 0);
    Num (2#1) * Var 24 / (Site 0 * Site 0 * Site 0) - Num (1#1) / (Site 0 * Site 0)];
    [Num (2#1) * Var 24 / (Site 0 * Site 0 * Site 0);
    Num (2#1) * Var 24 / (Site 0 * Site 0 * Site 0);
    Num (2#1) * Var 24 / (Site 0 * Site 0 * Site 0);
    Num (2#1) * Var 24 / (Site 0 * Site 0 * Site 0);
    Num (2#1) * Var 24 / (Site 0 * Site 0 * Site 0) - Num (1#1) / (Site 0 * Site 0)];
    [Num (2#1) * Var 24 / (Site 0 * Site 0 * Site 0) - Num (1#1) / (Site 0 * Site 0);
    Num (2#1) * Var 24 / (Site 0 * Site 0 * Site 0) - Num (1#1) / (Site 0 * Site 0);
    Num (2#1) * Var 24 / (Site 0 * Site 0 * Site 0) - Num (1#1) / (Site 0 * Site 0);
    Num (2#1) * Var 24 / (Site 0 * Site 0 * Site 0) - Num (1#1) / (Site 0 * Site 0);
    Num (2#1) * Var 24 / (Site 0 * Site 0 * Site 0) - Num (1#1) / (Site 0 * Site 0) - Num (1#1) / (Site 0 * Site 0)]]].
(** sources/biotiteTaj.c 945-1126: conTaj, inpMask SECOND, output d3m[i][j][k][l] *)
Definition Taj_con_d3m :=
  [[[[Num (-6#1) * Var 21 / (Site 0 * Site 0 * Site 0 * Site 0);
    Num (-6#1) * Var 21 / (Site 0 * Site 0 * Site 0 * Site 0) + Num (2#1) / (Site 0 * Site 0 * Site 0);
    Num (-6#1) * Var 21 / (Site 0 * Site 0 * Site 0 * Site 0);
    Num (-6#1) * Var 21 / (Site 0 * Site 0 * Site 0 * Site 0);
    Num (-6#1) * Var 21 / (Site 0 * Site 0 * Site 0 * Site 0)];
    [Num (-6#1) * Var 21 / (Site 0 * Site 0 * Site 0 * Site 0) + Num (2#1) / (Site 0 * Site 0 * Site 0);
    Num (-6#1) * Var 21 / (Site 0 * Site 0 * Site 0 * Site 0) + Num (2#1) / (Site 0 * Site 0 * Site 0) + Num (2#1) / (Site 0 * Site 0 * Site 0);
    Num (-6#1) * Var 21 / (Site 0 * Site 0 * Site 0 * Site 0) + Num (2#1) / (Site 0 * Site 0 * Site 0);
    Num (-6#1) * Var 21 / (Site 0 * Site 0 * Site 0 * Site 0) + Num (2#1) / (Site 0 * Site 0 * Site 0);
    Num (-6#1) * Var 21 / (Site 0 * Site 0 * Site 0 * Site 0) + Num (2#1) / (Site 0 * Site 0 * Site 0)];
    [Num (-6#1) * Var 21 / (Site 0 * Site 0 * Site 0 * Site 0);
    Num (-6#1) * Var 21 / (Site 0 * Site 0 * Site 0 * Site 0) + Num (2#1) / (Site 0 * Site 0 * Site 0);
    Num (-6#1) * Var 21 / (Site 0 * Site 0 * Site 0 * Site 0);
    Num (-6#1) * Var 21 / (Site 0 * Site 0 * Site 0 * Site 0);
    Num (-6#1) * Var 21 / (Site 0 * Site 0 * Site 0 * Site 0)];
    [Num (-6#1) * Var 21 / (Site 0 * Site 0 * Site 0 * Site 0);
    Num (-6#1) * Var 21 / (Site 0 * Site 0 * Site 0 * Site 0) + Num (2#1) / (Site 0 * Site 0 * Site 0);
    Num (-6#1) * Var 21 / (Site 0 * Site 0 * Site 0 * Site 0);
    Num (-6#1) * Var 21 / (Site 0 * Site 0 * Site 0 * Site 0);
    Num (-6#1) * Var 21 / (Site 0 * Site 0 * Site 0 * Site 0)];
    [Num (-6#1) * Var 21 / (Site 0 * Site 0 * Site 0 * Site 0);
    Num (-6#1) * Var 21 / (Site 0 * Site 0 * Site 0 * Site 0) + Num (2#1) / (Site 0 * Site 0 * Site 0);
    Num (-6#1) * Var 21 / (Site 0 * Site 0 * Site 0 * Site 0);
    Num (-6#1) * Var 21 / (Site 0 * Site 0 * Site 0 * Site 0);
    Num (-6#1) * Var 21 / (Site 0 * Site 0 * Site 0 * Site 0)]];
    [[Num (-6#1) * Var 21 / (Site 0 * Site 0 * Site 0 * Site 0) + Num (2#1) / (Site 0 * Site 0 * Site 0);
    Num (-6#1) * Var 21 / (Site 0 * Site 0 * Site 0 * Site 0) + Num (2#1) / (Site 0 * Site 0 * Site 0) + Num (2#1) / (Site 0 * Site 0 * Site 0);
    Num (-6#1) * Var 21 / (Site 0 * Site 0 * Site 0 * Site 0) + Num (2#1) / (Site 0 * Site 0 * Site 0);
    Num (-6#1) * Var 21 / (Site 0 * Site 0 * Site 0 * Site 0) + Num (2#1) / (Site 0 * Site 0 * Site 0);
    Num (-6#1) * Var 21 / (Site 0 * Site 0 * Site 0 * Site 0) + Num (2#1) / (Site 0 * Site 0 * Site 0)];
    [Num (-6#1) * Var 21 / (Site 0 * Site 0 * Site 0 * Site 0) + Num (2#1) / (Site 0 * Site 0 * Site 0) + Num (2#1) / (Site 0 * Site 0 * Site 0);
    Num (-6#1) * Var 21 / (Site 0 * Site 0 * Site 0 * Site 0) + Num (2#1) / (Site 0 * Site 0 * Site 0) + Num (2#1) / (Site 0 * Site 0 * Site 0) + Num (2#1) / (Site 0 * Site 0 * Site 0);
    Num (-6#1) * Var 21 / (Site 0 * Site 0 * Site 0 * Site 0) + Num (2#1) / (Site 0 * Site 0 * Site 0) + Num (2#1) / (Site 0 * Site 0 * Site 0);
    Num (-6#1) * Var 21 / (Site 0 * Site 0 * Site 0 * Site 0) + Num (2#1) / (Site 0 * Site 0 * Site 0) + Num (2#1) / (Site 0 * Site 0 * Site 0);
    Num (-6#1) * Var 21 / (Site 0 * Site 0 * Site 0 * Site 0) + Num (2#1) / (Site 0 * Site 0 * Site 0) + Num (2#1) / (Site 0 * Site 0 * Site 0)];
    [Num (-6#1) * Var 21 / (Site 0 * Site 0 * Site 0 * Site 0) + Num (2#1) / (Site 0 * Site 0 * Site 0);
    Num (-6#1) * Var 21 / (Site 0 * Site 0 * Site 0 * Site 0) + Num (2#1) / (Site 0 * Site 0 * Site 0) + Num (2#1) / (Site 0 * Site 0 * Site 0);
    Num (-6#1) * Var 21 / (Site 0 * Site 0 * Site 0 * Site 0) + Num (2#1) / (Site 0 * Site 0 * Site 0);
    Num (-6#1) * Var 21 / (Site 0 * Site 0 * Site 0 * Site 0) + Num (2#1) / (Site 0 * Site 0 * Site 0);
    Num (-6#1) * Var 21 / (Site 0 * Site 0 * Site 0 * Site 0) + Num (2#1) / (Site 0 * Site 0 * Site 0)];
    [Num (-6#1) * Var 21 / (Site 0 * Site 0 * Site 0 * Site 0) + Num (2#1) / (Site 0 * Site 0 * Site 0);
    Num (-6#1) * Var 21 / (Site 0 * Site 0 * Site 0 * Site 0) + Num (2#1) / (Site 0 * Site 0 * Site 0) + Num (2#1) / (Site 0 * Site 0 * Site 0);
    Num (-6#1) * Var 21 / (Site 0 * Site 0 * Site 0 * Site 0) + Num (2#1) / (Site 0 * Site 0 * Site 0);
    Num (-6#1) * Var 21 / (Site 0 * Site 0 * Site 0 * Site 0) + Num (2#1) / (Site 0 * Site 0 * Site 0);
    Num (-6#1) * Var 21 / (Site 0 * Site 0 * Site 0 * Site 0) + Num (2#1) / (Site 0 * Site 0 * Site 0)];
    [Num (-6#1) * Var 21 / (Site 0 * Site 0 * Site 0 * Site 0) + Num (2#1) / (Site 0 * Site 0 * Site 0);
    Num (-6#1) * Var 21 / (Site 0 * Site 0 * Site 0 * Site 0) + Num (2#1) / (Site 0 * Site 0 * Site 0) + Num (2#1) / (Site 0 * Site 0 * Site 0);
    Num (-6#1) * Var 21 / (Site 0 * Site 0 * Site 0 * Site 0) + Num (2#1) / (Site 0 * Site 0 * Site 0);
    Num (-6#1) * Var 21 / (Site 0 * Site 0 * Site 0 * Site 0) + Num (2#1) / (Site 0 * Site 0 * Site 0);
    Num (-6#1) * Var 21 / (Site 0 * Site 0 * Site 0 * Site 0) + Num (2#1) / (Site 0 * Site 0 * Site 0)]];
    [[Num (-6#1) * Var 21 / (Site 0 * Site 0 * Site 0 * Site 0);
    Num (-6#1) * Var 21 / (Site 0 * Site 0 * Site 0 * Site 0) + Num (2#1) / (Site 0 * Site 0 * Site 0);
    Num (-6#1) * Var 21 / (Site 0 * Site 0 * Site 0 * Site 0);
    Num (-6#1) * Var 21 / (Site 0 * Site 0 * Site 0 * Site 0);
    Num (-6#1) * Var 21 / (Site 0 * Site 0 * Site 0 * Site 0)];
    [Num (-6#1) * Var 21 / (Site 0 * Site 0 * Site 0 * Site 0) + Num (2#1) / (Site 0 * Site 0 * Site 0);
    Num (-6#1) * Var 21 / (Site 0 * Site 0 * Site 0 * Site 0) + Num (2#1) / (Site 0 * Site 0 * Site 0) + Num (2#1) / (Site 0 * Site 0 * Site 0);
    Num (-6#1) * Var 21 / (Site 0 * Site 0 * Site 0 * Site 0) + Num (2#1) / (Site 0 * Site 0 * Site 0);
    Num (-6#1) * Var 21 / (Site 0 * Site 0 * Site 0 * Site 0) + Num (2#1) / (Site 0 * Site 0 * Site 0);
    Num (-6#1) * Var 21 / (Site 0 * Site 0 * Site 0 * Site 0) + Num (2#1) / (Site 0 * Site 0 * Site 0)];
    [Num (-6#1) * Var 21 / (Site 0 * Site 0 * Site 0 * Site 0);
    Num (-6#1) * Var 21 / (Site 0 * Site 0 * Site 0 * Site 0) + Num (2#1) / (Site 0 * Site 0 * Site 0);
    Num (-6#1) * Var 21 / (Site 0 * Site 0 * Site 0 * Site 0);
    Num (-6#1) * Var 21 / (Site 0 * Site 0 * Site 0 * Site 0);
    Num (-6#1) * Var 21 / (Site 0 * Site 0 * Site 0 * Site 0)];
    [Num (-6#1) * Var 21 / (Site 0 * Site 0 * Site 0 * Site 0);
    Num (-6#1) * Var 21 / (Site 0 * Site 0 * Site 0 * Site 0) + Num (2#1) / (Site 0 * Site 0 * Site 0);
    Num (-6#1) * Var 21 / (Site 0 * Site 0 * Site 0 * Site 0);
    Num (-6#1) * Var 21 / (Site 0 * Site 0 * Site 0 * Site 0);
    Num (-6#1) * Var 21 / (Site 0 * Site 0 * Site 0 * Site 0)];
    [Num (-6#1) * Var 21 / (Site 0 * Site 0 * Site 0 * Site 0);
    Num (-6#1) * Var 21 / (Site 0 * Site 0 * Site 0 * Site 0) + Num (2#1) / (Site 0 * Site 0 * Site 0);
    Num (-6#1) * Var 21 / (Site 0 * Site 0 * Site 0 * Site 0);
    Num (-6#1) * Var 21 / (Site 0 * Site 0 * Site 0 * Site 0);
    Num (-6#1) * Var 21 / (Site 0 * Site 0 * Site 0 * Site 0)]];
    [[Num (-6#1) * Var 21 / (Site 0 * Site 0 * Site 0 * Site 0);
    Num (-6#1) * Var 21 / (Site 0 * Site 0 * Site 0 * Site 0) + Num (2#1) / (Site 0 * Site 0 * Site 0);
    Num (-6#1) * Var 21 / (Site 0 * Site 0 * Site 0 * Site 0);
    Num (-6#1) * Var 21 / (Site 0 * Site 0 * Site 0 * Site 0);
    Num (-6#1) * Var 21 / (Site 0 * Site 0 * Site 0 * Site 0)];
    [Num (-6#1) * Var 21 / (Site 0 * Site 0 * Site 0 * Site 0) + Num (2#1) / (Site 0 * Site 0 * Site 0);
    Num (-6#1) * Var 21 / (Site 0 * Site 0 * Site 0 * Site 0) + Num (2#1) / (Site 0 * Site 0 * Site 0) + Num (2#1) / (Site 0 * Site 0 * Site 0);
    Num (-6#1) * Var 21 / (Site 0 * Site 0 * Site 0 * Site 0) + Num (2#1) / (Site 0 * Site 0 * Site 0);
    Num (-6#1) * Var 21 / (Site 0 * Site 0 * Site 0 * Site 0) + Num (2#1) / (Site 0 * Site 0 * Site 0);
    Num (-6#1) * Var 21 / (Site 0 * Site 0 * Site 0 * Site 0) + Num (2#1) / (Site 0 * Site 0 * Site 0)];
    [Num (-6#1) * Var 21 / (Site 0 * Site 0 * Site 0 * Site 0);
    Num (-6#1) * Var 21 / (Site 0 * Site 0 * Site 0 * Site 0) + Num (2#1) / (Site 0 * Site 0 * Site 0);
    Num (-6#1) * Var 21 / (Site 0 * Site 0 * Site 0 * Site 0);
    Num (-6#1) * Var 21 / (Site 0 * Site 0 * Site 0 * Site 0);
    Num (-6#1) * Var 21 / (Site 0 * Site 0 * Site 0 * Site 0)];
    [Num (-6#1) * Var 21 / (Site 0 * Site 0 * Site 0 * Site 0);
    Num (-6#1) * Var 21 / (Site 0 * Site 0 * Site 0 * Site 0) + Num (2#1) / (Site 0 * Site 0 * Site 0);
    Num (-6#1) * Var 21 / (Site 0 * Site 0 * Site 0 * Site 0);
    Num (-6#1) * Var 21 / (Site 0 * Site 0 * Site 0 * Site 0);
    Num (-6#1) * Var 21 / (Site 0 * Site 0 * Site 0 * Site 0)];
    [Num (-6#1) * Var 21 / (Site 0 * Site 0 * Site 0 * Site 0);
    Num (-6#1) * Var 21 / (Site 0 * Site 0 * Site 0 * Site 0) + Num (2#1) / (Site 0 * Site 0 * Site 0);
    Num (-6#1) * Var 21 / (Site 0 * Site 0 * Site 0 * Site 0);
    Num (-6#1) * Var 21 / (Site 0 * Site 0 * Site 0 * Site 0);
    Num (-6#1) * Var 21 / (Site 0 * Site 0 * Site 0 * Site 0)]];
    [[Num (-6#1) * Var 21 / (Site 0 * Site 0 * Site 0 * Site 0);
    Num (-6#1) * Var 21 / (Site 0 * Site 0 * Site 0 * Site 0) + Num (2#1) / (Site 0 * Site 0 * Site 0);
    Num (-6#1) * Var 21 / (Site 0 * Site 0 * Site 0 * Site 0);
    Num (-6#1) * Var 21 / (Site 0 * Site 0 * Site 0 * Site 0);
    Num (-6#1) * Var 21 / (Site 0 * Site 0 * Site 0 * Site 0)];
    [Num (-6#1) * Var 21 / (Site 0 * Site 0 * Site 0 * Site 0) + Num (2#1) / (Site 0 * Site 0 * Site 0);
    Num (-6#1) * Var 21 / (Site 0 * Site 0 * Site 0 * Site 0) + Num (2#1) / (Site 0 * Site 0 * Site 0) + Num (2#1) / (Site 0 * Site 0 * Site 0);
    Num (-6#1) * Var 21 / (Site 0 * Site 0 * Site 0 * Site 0) + Num (2#1) / (Site 0 * Site 0 * Site 0);
    Num (-6#1) * Var 21 / (Site 0 * Site 0 * Site 0 * Site 0) + Num (2#1) / (Site 0 * Site 0 * Site 0);
    Num (-6#1) * Var 21 / (Site 0 * Site 0 * Site 0 * Site 0) + Num (2#1) / (Site 0 * Site 0 * Site 0)];
    [Num (-6#1) * Var 21 / (Site 0 * Site 0 * Site 0 * Site 0);
    Num (-6#1) * Var 21 / (Site 0 * Site 0 * Site 0 * Site 0) + Num (2#1) / (Site 0 * Site 0 * Site 0);
    Num (-6#1) * Var 21 / (Site 0 * Site 0 * Site 0 * Site 0);
    Num (-6#1) * Var 21 / (Site 0 * Site 0 * Site 0 * Site 0);
    Num (-6#1) * Var 21 / (Site 0 * Site 0 * Site 0 * Site 0)];
    [Num (-6#1) * Var 21 / (Site 0 * Site 0 * Site 0 * Site 0);
    Num (-6#1) * Var 21 / (Site 0 * Site 0 * Site 0 * Site 0) + Num (2#1) / (Site 0 * Site 0 * Site 0);
    Num (-6#1) * Var 21 / (Site 0 * Site 0 * Site 0 * Site 0);
    Num (-6#1) * Var 21 / (Site 0 * Site 0 * Site 0 * Site 0);
    Num (-6#1) * Var 21 / (Site 0 * Site 0 * Site 0 * Site 0)];
    [Num (-6#1) * Var 21 / (Site 0 * Site 0 * Site 0 * Site 0);
    Num (-6#1) * Var 21 / (Site 0 * Site 0 * Site 0 * Site 0) + Num (2#1) / (Site 0 * Site 0 * Site 0);
    Num (-6#1) * Var 21 / (Site 0 * Site 0 * Site 0 * Site 0);
    Num (-6#1) * Var 21 / (Site 0 * Site 0 * Site 0 * Site 0);
    Num (-6#1) * Var 21 / (Site 0 * Site 0 * Site 0 * Site 0)]]];
    [[[Num (-6#1) * Var 22 / (Site 0 * Site 0 * Site 0 * Site 0);
    Num (-6#1) * Var 22 / (Site 0 * Site 0 * Site 0 * Site 0);
    Num (-6#1) * Var 22 / (Site 0 * Site 0 * Site 0 * Site 0) + Num (2#1) / (Site 0 * Site 0 * Site 0);
    Num (-6#1) * Var 22 / (Site 0 * Site 0 * Site 0 * Site 0);
    Num (-6#1) * Var 22 / (Site 0 * Site 0 * Site 0 * Site 0)];
    [Num (-6#1) * Var 22 / (Site 0 * Site 0 * Site 0 * Site 0);
    Num (-6#1) * Var 22 / (Site 0 * Site 0 * Site 0 * Site 0);
    Num (-6#1) * Var 22 / (Site 0 * Site 0 * Site 0 * Site 0) + Num (2#1) / (Site 0 * Site 0 * Site 0);
    Num (-6#1) * Var 22 / (Site 0 * Site 0 * Site 0 * Site 0);
    Num (-6#1) * Var 22 / (Site 0 * Site 0 * Site 0 * Site 0)];
    [Num (-6#1) * Var 22 / (Site 0 * Site 0 * Site 0 * Site 0) + Num (2#1) / (Site 0 * Site 0 * Site 0);
    Num (-6#1) * Var 22 / (Site 0 * Site 0 * Site 0 * Site 0) + Num (2#1) / (Site 0 * Site 0 * Site 0);
    Num (-6#1) * Var 22 / (Site 0 * Site 0 * Site 0 * Site 0) + Num (2#1) / (Site 0 * Site 0 * Site 0) + Num (2#1) / (Site 0 * Site 0 * Site 0);
    Num (-6#1) * Var 22 / (Site 0 * Site 0 * Site 0 * Site 0) + Num (2#1) / (Site 0 * Site 0 * Site 0);
    Num (-6#1) * Var 22 / (Site 0 * Site 0 * Site 0 * Site 0) + Num (2#1) / (Site 0 * Site 0 * Site 0)];
    [Num (-6#1) * Var 22 / (Site 0 * Site 0 * Site 0 * Site 0);
    Num (-6#1) * Var 22 / (Site 0 * Site 0 * Site 0 * Site 0);
    Num (-6#1) * Var 22 / (Site 0 * Site 0 * Site 0 * Site 0) + Num (2#1) / (Site 0 * Site 0 * Site 0);
    Num (-6#1) * Var 22 / (Site 0 * Site 0 * Site 0 * Site 0);
    Num (-6#1) * Var 22 / (Site 0 * Site 0 * Site 0 * Site 0)];
    [Num (-6#1) * Var 22 / (Site 0 * Site 0 * Site 0 * Site 0);
    Num (-6#1) * Var 22 / (Site 0 * Site 0 * Site 0 * Site 0);
    Num (-6#1) * Var 22 / (Site 0 * Site 0 * Site 0 * Site 0) + Num (2#1) / (Site 0 * Site 0 * Site 0);
    Num (-6#1) * Var 22 / (Site 0 * Site 0 * Site 0 * Site 0);
    Num (-6#1) * Var 22 / (Site 0 * Site 0 * Site 0 * Site 0)]];
    [[Num (-6#1) * Var 22 / (Site 0 * Site 0 * Site 0 * Site 0);
    Num (-6#1) * Var 22 / (Site 0 * Site 0 * Site 0 * Site 0);
    Num (-6#1) * Var 22 / (Site 0 * Site 0 * Site 0 * Site 0) + Num (2#1) / (Site 0 * Site 0 * Site 0);
    Num (-6#1) * Var 22 / (Site 0 * Site 0 * Site 0 * Site 0);
    Num (-6#1) * Var 22 / (Site 0 * Site 0 * Site 0 * Site 0)];
    [Num (-6#1) * Var 22 / (Site 0 * Site 0 * Site 0 * Site 0);
    Num (-6#1) * Var 22 / (Site 0 * Site 0 * Site 0 * Site 0);
    Num (-6#1) * Var 22 / (Site 0 * Site 0 * Site 0 * Site 0) + Num (2#1) / (Site 0 * Site 0 * Site 0);
    Num (-6#1) * Var 22 / (Site 0 * Site 0 * Site 0 * Site 0);
    Num (-6#1) * Var 22 / (Site 0 * Site 0 * Site 0 * Site 0)];
    [Num (-6#1) * Var 22 / (Site 0 * Site 0 * Site 0 * Site 0) + Num (2#1) / (Site 0 * Site 0 * Site 0);
    Num (-6#1) * Var 22 / (Site 0 * Site 0 * Site 0 * Site 0) + Num (2#1) / (Site 0 * Site 0 * Site 0);
    Num (-6#1) * Var 22 / (Site 0 * Site 0 * Site 0 * Site 0) + Num (2#1) / (Site 0 * Site 0 * Site 0) + Num (2#1) / (Site 0 * Site 0 * Site 0);
    Num (-6#1) * Var 22 / (Site 0 * Site 0 * Site 0 * Site 0) + Num (2#1) / (Site 0 * Site 0 * Site 0);
    Num (-6#1) * Var 22 / (Site 0 * Site 0 * Site 0 * Site 0) + Num (2#1) / (Site 0 * Site 0 * Site 0)];
    [Num (-6#1) * Var 22 / (Site 0 * Site 0 * Site 0 * Site 0);
    Num (-6#1) * Var 22 / (Site 0 * Site 0 * Site 0 * Site 0);
    Num (-6#1) * Var 22 / (Site 0 * Site 0 * Site 0 * Site 0) + Num (2#1) / (Site 0 * Site 0 * Site 0);
    Num (-6#1) * Var 22 / (Site 0 * Site 0 * Site 0 * Site 0);
    Num (-6#1) * Var 22 / (Site 0 * Site 0 * Site 0 * Site 0)];
    [Num (-6#1) * Var 22 / (Site 0 * Site 0 * Site 0 * Site 0);
    Num (-6#1) * Var 22 / (Site 0 * Site 0 * Site 0 * Site 0);
    Num (-6#1) * Var 22 / (Site 0 * Site 0 * Site 0 * Site 0) + Num (2#1) / (Site 0 * Site 0 * Site 0);
    Num (-6#1) * Var 22 / (Site 0 * Site 0 * Site 0 * Site 0);
    Num (-6#1) * Var 22 / (Site 0 * Site 0 * Site 0 * Site 0)]];
    [[Num (-6#1) * Var 22 / (Site 0 * Site 0 * Site 0 * Site 0) + Num (2#1) / (Site 0 * Site 0 * Site 0);
    Num (-6#1) * Var 22 / (Site 0 * Site 0 * Site 0 * Site 0) + Num (2#1) / (Site 0 * Site 0 * Site 0);
    Num (-6#1) * Var 22 / (Site 0 * Site 0 * Site 0 * Site 0) + Num (2#1) / (Site 0 * Site 0 * Site 0) + Num (2#1) / (Site 0 * Site 0 * Site 0);
    Num (-6#1) * Var 22 / (Site 0 * Site 0 * Site 0 * Site 0) + Num (2#1) / (Site 0 * Site 0 * Site 0);
    Num (-6#1) * Var 22 / (Site 0 * Site 0 * Site 0 * Site 0) + Num (2#1) / (Site 0 * Site 0 * Site 0)];
    [Num (-6#1) * Var 22 / (Site 0 * Site 0 * Site 0 * Site 0) + Num (2#1) / (Site 0 * Site 0 * Site 0);
    Num (-6#1) * Var 22 / (Site 0 * Site 0 * Site 0 * Site 0) + Num (2#1) / (Site 0 * Site 0 * Site 0);
    Num (-6#1) * Var 22 / (Site 0 * Site 0 * Site 0 * Site 0) + Num (2#1) / (Site 0 * Site 0 * Site 0) + Num (2#1) / (Site 0 * Site 0 * Site 0);
    Num (-6#1) * Var 22 / (Site 0 * Site 0 * Site 0 * Site 0) + Num (2#1) / (Site 0 * Site 0 * Site 0);
    Num (-6#1) * Var 22 / (Site 0 * Site 0 * Site 0 * Site 0) + Num (2#1) / (Site 0 * Site 0 * Site 0)];
    [Num (-6#1) * Var 22 / (Site 0 * Site 0 * Site 0 * Site 0) + Num (2#1) / (Site 0 * Site 0 * Site 0) + Num (2#1) / (Site 0 * Site 0 * Site 0);
    Num (-6#1) * Var 22 / (Site 0 * Site 0 * Site 0 * Site 0) + Num (2#1) / (Site 0 * Site 0 * Site 0) + Num (2#1) / (Site 0 * Site 0 * Site 0);
    Num (-6#1) * Var 22 / (Site 0 * Site 0 * Site 0 * Site 0) + Num (2#1) / (Site 0 * Site 0 * Site 0) + Num (2#1) / (Site 0 * Site 0 * Site 0) + Num (2#1) / (Site 0 * Site 0 * Site 0);
    Num (-6#1) * Var 22 / (Site 0 * Site 0 * Site 0 * Site 0) + Num (2#1) / (Site 0 * Site 0 * Site 0) + Num (2#1) / (Site 0 * Site 0 * Site 0);
    Num (-6#1) * Var 22 / (Site 0 * Site 0 * Site 0 * Site 0) + Num (2#1) / (Site 0 * Site 0 * Site 0) + Num (2#1) / (Site 0 * Site 0 * Site 0)];
    [Num (-6#1) * Var 22 / (Site 0 * Site 0 * Site 0 * Site 0) + Num (2#1) / (Site 0 * Site 0 * Site 0);
    Num (-6#1) * Var 22 / (Site 0 * Site 0 * Site 0 * Site 0) + Num (2#1) / (Site 0 * Site 0 * Site 0);
    Num (-6#1) * Var 22 / (Site 0 * Site 0 * Site 0 * Site 0) + Num (2#1) / (Site 0 * Site 0 * Site 0) + Num (2#1) / (Site 0 * Site 0 * Site 0);
    Num (-6#1) * Var 22 / (Site 0 * Site 0 * Site 0 * Site 0) + Num (2#1) / (Site 0 * Site 0 * Site 0);
    Num (-6#1) * Var 22 / (Site 0 * Site 0 * Site 0 * Site 0) + Num (2#1) / (Site 0 * Site 0 * Site 0)];
    [Num (-6#1) * Var 22 / (Site 0 * Site 0 * Site 0 * Site 0) + Num (2#1) / (Site 0 * Site 0 * Site 0);
    Num (-6#1) * Var 22 / (Site 0 * Site 0 * Site 0 * Site 0) + Num (2#1) / (Site 0 * Site 0 * Site 0);
    Num (-6#1) * Var 22 / (Site 0 * Site 0 * Site 0 * Site 0) + Num (2#1) / (Site 0 * Site 0 * Site 0) + Num (2#1) / (Site 0 * Site 0 * Site 0);
    Num (-6#1) * Var 22 / (Site 0 * Site 0 * Site 0 * Site 0) + Num (2#1) / (Site 0 * Site 0 * Site 0);
    Num (-6#1) * Var 22 / (Site 0 * Site 0 * Site 0 * Site 0) + Num (2#1) / (Site 0 * Site 0 * Site 0)]];
    [[Num (-6#1) * Var 22 / (Site 0 * Site 0 * Site 0 * Site 0);
    Num (-6#1) * Var 22 / (Site 0 * Site 0 * Site 0 * Site 0);
    Num (-6#1) * Var 22 / (Site 0 * Site 0 * Site 0 * Site 0) + Num (2#1) / (Site 0 * Site 0 * Site 0);
    Num (-6#1) * Var 22 / (Site 0 * Site 0 * Site 0 * Site 0);
    Num (-6#1) * Var 22 / (Site 0 * Site 0 * Site 0 * Site 0)];
    [Num (-6#1) * Var 22 / (Site 0 * Site 0 * Site 0 * Site 0);
    Num (-6#1) * Var 22 / (Site 0 * Site 0 * Site 0 * Site 0);
    Num (-6#1) * Var 22 / (Site 0 * Site 0 * Site 0 * Site 0) + Num (2#1) / (Site 0 * Site 0 * Site 0);
    Num (-6#1) * Var 22 / (Site 0 * Site 0 * Site 0 * Site 0);
    Num (-6#1) * Var 22 / (Site 0 * Site 0 * Site 0 * Site 0)];
    [Num (-6#1) * Var 22 / (Site 0 * Site 0 * Site 0 * Site 0) + Num (2#1) / (Site 0 * Site 0 * Site 0);
    Num (-6#1) * Var 22 / (Site 0 * Site 0 * Site 0 * Site 0) + Num (2#1) / (Site 0 * Site 0 * Site 0);
    Num (-6#1) * Var 22 / (Site 0 * Site 0 * Site 0 * Site 0) + Num (2#1) / (Site 0 * Site 0 * Site 0) + Num (2#1) / (Site 0 * Site 0 * Site 0);
    Num (-6#1) * Var 22 / (Site 0 * Site 0 * Site 0 * Site 0) + Num (2#1) / (Site 0 * Site 0 * Site 0);
    Num (-6#1) * Var 22 / (Site 0 * Site 0 * Site 0 * Site 0) + Num (2#1) / (Site 0 * Site 0 * Site 0)];
    [Num (-6#1) * Var 22 / (Site 0 * Site 0 * Site 0 * Site 0);
    Num (-6#1) * Var 22 / (Site 0 * Site 0 * Site 0 * Site 0);
    Num (-6#1) * Var 22 / (Site 0 * Site 0 * Site 0 * Site 0) + Num (2#1) / (Site 0 * Site 0 * Site 0);
    Num (-6#1) * Var 22 / (Site 0 * Site 0 * Site 0 * Site 0);
    Num (-6#1) * Var 22 / (Site 0 * Site 0 * Site 0 * Site 0)];
    [Num (-6#1) * Var 22 / (Site 0 * Site 0 * Site 0 * Site 0);
    Num (-6#1) * Var 22 / (Site 0 * Site 0 * Site 0 * Site 0);
    Num (-6#1) * Var 22 / (Site 0 * Site 0 * Site 0 * Site 0) + Num (2#1) / (Site 0 * Site 0 * Site 0);
    Num (-6#1) * Var 22 / (Site 0 * Site 0 * Site 0 * Site 0);
    Num (-6#1) * Var 22 / (Site 0 * Site 0 * Site 0 * Site 0)]];
    [[Num (-6#1) * Var 22 / (Site 0 * Site 0 * Site 0 * Site 0);
    Num (-6#1) * Var 22 / (Site 0 * Site 0 * Site 0 * Site 0);
    Num (-6#1) * Var 22 / (Site 0 * Site 0 * Site 0 * Site 0) + Num (2#1) / (Site 0 * Site 0 * Site 0);
    Num (-6#1) * Var 22 / (Site 0 * Site 0 * Site 0 * Site 0);
    Num (-6#1) * Var 22 / (Site 0 * Site 0 * Site 0 * Site 0)];
    [Num (-6#1) * Var 22 / (Site 0 * Site 0 * Site 0 * Site 0);
    Num (-6#1) * Var 22 / (Site 0 * Site 0 * Site 0 * Site 0);
    Num (-6#1) * Var 22 / (Site 0 * Site 0 * Site 0 * Site 0) + Num (2#1) / (Site 0 * Site 0 * Site 0);
    Num (-6#1) * Var 22 / (Site 0 * Site 0 * Site 0 * Site 0);
    Num (-6#1) * Var 22 / (Site 0 * Site 0 * Site 0 * Site 0)];
    [Num (-6#1) * Var 22 / (Site 0 * Site 0 * Site 0 * Site 0) + Num (2#1) / (Site 0 * Site 0 * Site 0);
    Num (-6#1) * Var 22 / (Site 0 * Site 0 * Site 0 * Site 0) + Num (2#1) / (Site 0 * Site 0 * Site 0);
    Num (-6#1) * Var 22 / (Site 0 * Site 0 * Site 0 * Site 0) + Num (2#1) / (Site 0 * Site 0 * Site 0) + Num (2#1) / (Site 0 * Site 0 * Site 0);
    Num (-6#1) * Var 22 / (Site 0 * Site 0 * Site 0 * Site 0) + Num (2#1) / (Site 0 * Site 0 * Site 0);
    Num (-6#1) * Var 22 / (Site 0 * Site 0 * Site 0 * Site 0) + Num (2#1) / (Site 0 * Site 0 * Site 0)];
    [Num (-6#1) * Var 22 / (Site 0 * Site 0 * Site 0 * Site 0);
    Num (-6#1) * Var 22 / (Site 0 * Site 0 * Site 0 * Site 0);
    Num (-6#1) * Var 22 / (Site 0 * Site 0 * Site 0 * Site 0) + Num (2#1) / (Site 0 * Site 0 * Site 0);
    Num (-6#1) * Var 22 / (Site 0 * Site 0 * Site 0 * Site 0);
    Num (-6#1) * Var 22 / (Site 0 * Site 0 * Site 0 * Site 0)];
    [Num (-6#1) * Var 22 / (Site 0 * Site 0 * Site 0 * Site 0);
    Num (-6#1) * Var 22 / (Site 0 * Site 0 * Site 0 * Site 0);
    Num (-6#1) * Var 22 / (Site 0 * Site 0 * Site 0 * Site 0) + Num (2#1) / (Site 0 * Site 0 * Site 0);
    Num (-6#1) * Var 22 / (Site 0 * Site 0 * Site 0 * Site 0);
    Num (-6#1) * Var 22 / (Site 0 * Site 0 * Site 0 * Site 0)]]];
    [[[Num (-6#1) * Var 23 / (Site 0 * Site 0 * Site 0 * Site 0);
    Num (-6#1) * Var 23 / (Site 0 * Site 0 * Site 0 * Site 0);
    Num (-6#1) * Var 23 / (Site 0 * Site 0 * Site 0 * Site 0);
    Num (-6#1) * Var 23 / (Site 0 * Site 0 * Site 0 * Site 0) + Num (2#1) / (Site 0 * Site 0 * Site 0);
    Num (-6#1) * Var 23 / (Site 0 * Site 0 * Site 0 * Site 0)];
    [Num (-6#1) * Var 23 / (Site 0 * Site 0 * Site 0 * Site 0);
    Num (-6#1) * Var 23 / (Site 0 * Site 0 * Site 0 * Site 0);
    Num (-6#1) * Var 23 / (Site 0 * Site 0 * Site 0 * Site 0);
    Num (-6#1) * Var 23 / (Site 0 * Site 0 * Site 0 * Site 0) + Num (2#1) / (Site 0 * Site 0 * Site 0);
    Num (-6#1) * Var 23 / (Site 0 * Site 0 * Site 0 * Site 0)];
    [Num (-6#1) * Var 23 / (Site 0 * Site 0 * Site 0 * Site 0);
    Num (-6#1) * Var 23 / (Site 0 * Site 0 * Site 0 * Site 0);
    Num (-6#1) * Var 23 / (Site 0 * Site 0 * Site 0 * Site 0);
    Num (-6#1) * Var 23 / (Site 0 * Site 0 * Site 0 * Site 0) + Num (2#1) / (Site 0 * Site 0 * Site 0);
    Num (-6#1) * Var 23 / (Site 0 * Site 0 * Site 0 * Site 0)];
    [Num (-6#1) * Var 23 / (Site 0 * Site 0 * Site 0 * Site 0) + Num (2#1) / (Site 0 * Site 0 * Site 0);
    Num (-6#1) * Var 23 / (Site 0 * Site 0 * Site 0 * Site 0) + Num (2#1) / (Site 0 * Site 0 * Site 0);
    Num (-6#1) * Var 23 / (Site 0 * Site 0 * Site 0 * Site 0) + Num (2#1) / (Site 0 * Site 0 * Site 0);
    Num (-6#1) * Var 23 / (Site 0 * Site 0 * Site 0 * Site 0) + Num (2#1) / (Site 0 * Site 0 * Site 0) + Num (2#1) / (Site 0 * Site 0 * Site 0);
    Num (-6#1) * Var 23 / (Site 0 * Site 0 * Site 0 * Site 0) + Num (2#1) / (Site 0 * Site 0 * Site 0)];
    [Num (-6#1) * Var 23 / (Site 0 * Site 0 * Site 0 * Site 0);
    Num (-6#1) * Var 23 / (Site 0 * Site 0 * Site 0 * Site 0);
    Num (-6#1) * Var 23 / (Site 0 * Site 0 * Site 0 * Site 0);
    Num (-6#1) * Var 23 / (Site 0 * Site 0 * Site 0 * Site 0) + Num (2#1) / (Site 0 * Site 0 * Site 0);
    Num (-6#1) * Var 23 / (Site 0 * Site 0 * Site 0 * Site 0)]];
    [[Num (-6#1) * Var 23 / (Site 0 * Site 0 * Site 0 * Site 0);
    Num (-6#1) * Var 23 / (Site 0 * Site 0 * Site 0 * Site 0);
    Num (-6#1) * Var 23 / (Site 0 * Site 0 * Site 0 * Site 0);
    Num (-6#1) * Var 23 / (Site 0 * Site 0 * Site 0 * Site 0) + Num (2#1) / (Site 0 * Site 0 * Site 0);
    Num (-6#1) * Var 23 / (Site 0 * Site 0 * Site 0 * Site 0)];
    [Num (-6#1) * Var 23 / (Site 0 * Site 0 * Site 0 * Site 0);
    Num (-6#1) * Var 23 / (Site 0 * Site 0 * Site 0 * Site 0);
    Num (-6#1) * Var 23 / (Site 0 * Site 0 * Site 0 * Site 0);
    Num (-6#1) * Var 23 / (Site 0 * Site 0 * Site 0 * Site 0) + Num (2#1) / (Site 0 * Site 0 * Site 0);
    Num (-6#1) * Var 23 / (Site 0 * Site 0 * Site 0 * Site 0)];
    [Num (-6#1) * Var 23 / (Site 0 * Site 0 * Site 0 * Site 0);
    Num (-6#1) * Var 23 / (Site 0 * Site 0 * Site 0 * Site 0);
    Num (-6#1) * Var 23 / (Site 0 * Site 0 * Site 0 * Site 0);
    Num (-6#1) * Var 23 / (Site 0 * Site 0 * Site 0 * Site 0) + Num (2#1) / (Site 0 * Site 0 * Site 0);
    Num (-6#1) * Var 23 / (Site 0 * Site 0 * Site 0 * Site 0)];
    [Num (-6#1) * Var 23 / (Site 0 * Site 0 * Site 0 * Site 0) + Num (2#1) / (Site 0 * Site 0 * Site 0);
    Num (-6#1) * Var 23 / (Site 0 * Site 0 * Site 0 * Site 0) + Num (2#1) / (Site 0 * Site 0 * Site 0);
    Num (-6#1) * Var 23 / (Site 0 * Site 0 * Site 0 * Site 0) + Num (2#1) / (Site 0 * Site 0 * Site 0);
    Num (-6#1) * Var 23 / (Site 0 * Site 0 * Site 0 * Site 0) + Num (2#1) / (Site 0 * Site 0 * Site 0) + Num (2#1) / (Site 0 * Site 0 * Site 0);
    Num (-6#1) * Var 23 / (Site 0 * Site 0 * Site 0 * Site 0) + Num (2#1) / (Site 0 * Site 0 * Site 0)];
    [Num (-6#1) * Var 23 / (Site 0 * Site 0 * Site 0 * Site 0);
    Num (-6#1) * Var 23 / (Site 0 * Site 0 * Site 0 * Site 0);
    Num (-6#1) * Var 23 / (Site 0 * Site 0 * Site 0 * Site 0);
    Num (-6#1) * Var 23 / (Site 0 * Site 0 * Site 0 * Site 0) + Num (2#1) / (Site 0 * Site 0 * Site 0);
    Num (-6#1) * Var 23 / (Site 0 * Site 0 * Site 0 * Site 0)]];
    [[Num (-6#1) * Var 23 / (Site 0 * Site 0 * Site 0 * Site 0);
    Num (-6#1) * Var 23 / (Site 0 * Site 0 * Site 0 * Site 0);
    Num (-6#1) * Var 23 / (Site 0 * Site 0 * Site 0 * Site 0);
    Num (-6#1) * Var 23 / (Site 0 * Site 0 * Site 0 * Site 0) + Num (2#1) / (Site 0 * Site 0 * Site 0);
    Num (-6#1) * Var 23 / (Site 0 * Site 0 * Site 0 * Site 0)];
    [Num (-6#1) * Var 23 / (Site 0 * Site 0 * Site 0 * Site 0);
    Num (-6#1) * Var 23 / (Site 0 * Site 0 * Site 0 * Site 0);
    Num (-6#1) * Var 23 / (Site 0 * Site 0 * Site 0 * Site 0);
    Num (-6#1) * Var 23 / (Site 0 * Site 0 * Site 0 * Site 0) + Num (2#1) / (Site 0 * Site 0 * Site 0);
    Num (-6#1) * Var 23 / (Site 0 * Site 0 * Site 0 * Site 0)];
    [Num (-6#1) * Var 23 / (Site 0 * Site 0 * Site 0 * Site 0);
    Num (-6#1) * Var 23 / (Site 0 * Site 0 * Site 0 * Site 0);
    Num (-6#1) * Var 23 / (Site 0 * Site 0 * Site 0 * Site 0);
    Num (-6#1) * Var 23 / (Site 0 * Site 0 * Site 0 * Site 0) + Num (2#1) / (Site 0 * Site 0 * Site 0);
    Num (-6#1) * Var 23 / (Site 0 * Site 0 * Site 0 * Site 0)];
    [Num (-6#1) * Var 23 / (Site 0 * Site 0 * Site 0 * Site 0) + Num (2#1) / (Site 0 * Site 0 * Site 0);
    Num (-6#1) * Var 23 / (Site 0 * Site 0 * Site 0 * Site 0) + Num (2#1) / (Site 0 * Site 0 * Site 0);
    Num (-6#1) * Var 23 / (Site 0 * Site 0 * Site 0 * Site 0) + Num (2#1) / (Site 0 * Site 0 * Site 0);
    Num (-6#1) * Var 23 / (Site 0 * Site 0 * Site 0 * Site 0) + Num (2#1) / (Site 0 * Site 0 * Site 0) + Num (2#1) / (Site 0 * Site 0 * Site 0);
    Num (-6#1) * Var 23 / (Site 0 * Site 0 * Site 0 * Site 0) + Num (2#1) / (Site 0 * Site 0 * Site 0)];
    [Num (-6#1) * Var 23 / (Site 0 * Site 0 * Site 0 * Site 0);
    Num (-6#1) * Var 23 / (Site 0 * Site 0 * Site 0 * Site 0);
    Num (-6#1) * Var 23 / (Site 0 * Site 0 * Site 0 * Site 0);
    Num (-6#1) * Var 23 / (Site 0 * Site 0 * Site 0 * Site 0) + Num (2#1) / (Site 0 * Site 0 * Site 0);
    Num (-6#1) * Var 23 / (Site 0 * Site 0 * Site 0 * Site 0)]];
    [[Num (-6#1) * Var 23 / (Site 0 * Site 0 * Site 0 * Site 0) + Num (2#1) / (Site 0 * Site 0 * Site 0);
    Num (-6#1) * Var 23 / (Site 0 * Site 0 * Site 0 * Site 0) + Num (2#1) / (Site 0 * Site 0 * Site 0);
    Num (-6#1) * Var 23 / (Site 0 * Site 0 * Site 0 * Site 0) + Num (2#1) / (Site 0 * Site 0 * Site 0);
    Num (-6#1) * Var 23 / (Site 0 * Site 0 * Site 0 * Site 0) + Num (2#1) / (Site 0 * Site 0 * Site 0) + Num (2#1) / (Site 0 * Site 0 * Site 0);
    Num (-6#1) * Var 23 / (Site 0 * Site 0 * Site 0 * Site 0) + Num (2#1) / (Site 0 * Site 0 * Site 0)];
    [Num (-6#1) * Var 23 / (Site 0 * Site 0 * Site 0 * Site 0) + Num (2#1) / (Site 0 * Site 0 * Site 0);
    Num (-6#1) * Var 23 / (Site 0 * Site 0 * Site 0 * Site 0) + Num (2#1) / (Site 0 * Site 0 * Site 0);
    Num (-6#1) * Var 23 / (Site 0 * Site 0 * Site 0 * Site 0) + Num (2#1) / (Site 0 * Site 0 * Site 0);
    Num (-6#1) * Var 23 / (Site 0 * Site 0 * Site 0 * Site 0) + Num (2#1) / (Site 0 * Site 0 * Site 0) + Num (2#1) / (Site 0 * Site 0 * Site 0);
    Num (-6#1) * Var 23 / (Site 0 * Site 0 * Site 0 * Site 0) + Num (2#1) / (Site 0 * Site 0 * Site 0)];
    [Num (-6#1) * Var 23 / (Site 0 * Site 0 * Site 0 * Site 0) + Num (2#1) / (Site 0 * Site 0 * Site 0);
    Num (-6#1) * Var 23 / (Site 0 * Site 0 * Site 0 * Site 0) + Num (2#1) / (Site 0 * Site 0 * Site 0);
    Num (-6#1) * Var 23 / (Site 0 * Site 0 * Site 0 * Site 0) + Num (2#1) / (Site 0 * Site 0 * Site 0);
    Num (-6#1) * Var 23 / (Site 0 * Site 0 * Site 0 * Site 0) + Num (2#1) / (Site 0 * Site 0 * Site 0) + Num (2#1) / (Site 0 * Site 0 * Site 0);
    Num (-6#1) * Var 23 / (Site 0 * Site 0 * Site 0 * Site 0) + Num (2#1) / (Site 0 * Site 0 * Site 0)];
    [Num (-6#1) * Var 23 / (Site 0 * Site 0 * Site 0 * Site 0) + Num (2#1) / (Site 0 * Site 0 * Site 0) + Num (2#1) / (Site 0 * Site 0 * Site 0);
    Num (-6#1) * Var 23 / (Site 0 * Site 0 * Site 0 * Site 0) + Num (2#1) / (Site 0 * Site 0 * Site 0) + Num (2#1) / (Site 0 * Site 0 * Site 0);
    Num (-6#1) * Var 23 / (Site 0 * Site 0 * Site 0 * Site 0) + Num (2#1) / (Site 0 * Site 0 * Site 0) + Num (2#1) / (Site 0 * Site 0 * Site 0);
    Num (-6#1) * Var 23 / (Site 0 * Site 0 * Site 0 * Site 0) + Num (2#1) / (Site 0 * Site 0 * Site 0) + Num (2#1) / (Site 0 * Site 0 * Site 0) + Num (2#1) / (Site 0 * Site 0 * Site 0);
    Num (-6#1) * Var 23 / (Site 0 * Site 0 * Site 0 * Site 0) + Num (2#1) / (Site 0 * Site 0 * Site 0) + Num (2#1) / (Site 0 * Site 0 * Site 0)];
    [Num (-6#1) * Var 23 / (Site 0 * Site 0 * Site 0 * Site 0) + Num (2#1) / (Site 0 * Site 0 * Site 0);
    Num (-6#1) * Var 23 / (Site 0 * Site 0 * Site 0 * Site 0) + Num (2#1) / (Site 0 * Site 0 * Site 0);
    Num (-6#1) * Var 23 / (Site 0 * Site 0 * Site 0 * Site 0) + Num (2#1) / (Site 0 * Site 0 * Site 0);
    Num (-6#1) * Var 23 / (Site 0 * Site 0 * Site 0 * Site 0) + Num (2#1) / (Site 0 * Site 0 * Site 0) + Num (2#1) / (Site 0 * Site 0 * Site 0);
    Num (-6#1) * Var 23 / (Site 0 * Site 0 * Site 0 * Site 0) + Num (2#1) / (Site 0 * Site 0 * Site 0)]];
    [[Num (-6#1) * Var 23 / (Site 0 * Site 0 * Site 0 * Site 0);
    Num (-6#1) * Var 23 / (Site 0 * Site 0 * Site 0 * Site 0);
    Num (-6#1) * Var 23 / (Site 0 * Site 0 * Site 0 * Site 0);
    Num (-6#1) * Var 23 / (Site 0 * Site 0 * Site 0 * Site 0) + Num (2#1) / (Site 0 * Site 0 * Site 0);
    Num (-6#1) * Var 23 / (Site 0 * Site 0 * Site 0 * Site 0)];
    [Num (-6#1) * Var 23 / (Site 0 * Site 0 * Site 0 * Site 0);
    Num (-6#1) * Var 23 / (Site 0 * Site 0 * Site 0 * Site 0);
    Num (-6#1) * Var 23 / (Site 0 * Site 0 * Site 0 * Site 0);
    Num (-6#1) * Var 23 / (Site 0 * Site 0 * Site 0 * Site 0) + Num (2#1) / (Site 0 * Site 0 * Site 0);
    Num (-6#1) * Var 23 / (Site 0 * Site 0 * Site 0 * Site 0)];
    [Num (-6#1) * Var 23 / (Site 0 * Site 0 * Site 0 * Site 0);
    Num (-6#1) * Var 23 / (Site 0 * Site 0 * Site 0 * Site 0);
    Num (-6#1) * Var 23 / (Site 0 * Site 0 * Site 0 * Site 0);
    Num (-6#1) * Var 23 / (Site 0 * Site 0 * Site 0 * Site 0) + Num (2#1) / (Site 0 * Site 0 * Site 0);
    Num (-6#1) * Var 23 / (Site 0 * Site 0 * Site 0 * Site 0)];
    [Num (-6#1) * Var 23 / (Site 0 * Site 0 * Site 0 * Site 0) + Num (2#1) / (Site 0 * Site 0 * Site 0);
    Num (-6#1) * Var 23 / (Site 0 * Site 0 * Site 0 * Site 0) + Num (2#1) / (Site 0 * Site 0 * Site 0);
    Num (-6#1) * Var 23 / (Site 0 * Site 0 * Site 0 * Site 0) + Num (2#1) / (Site 0 * Site 0 * Site 0);
    Num (-6#1) * Var 23 / (Site 0 * Site 0 * Site 0 * Site 0) + Num (2#1) / (Site 0 * Site 0 * Site 0) + Num (2#1) / (Site 0 * Site 0 * Site 0);
    Num (-6#1) * Var 23 / (Site 0 * Site 0 * Site 0 * Site 0) + Num (2#1) / (Site 0 * Site 0 * Site 0)];
    [Num (-6#1) * Var 23 / (Site 0 * Site 0 * Site 0 * Site 0);
    Num (-6#1) * Var 23 / (Site 0 * Site 0 * Site 0 * Site 0);
    Num (-6#1) * Var 23 / (Site 0 * Site 0 * Site 0 * Site 0);
    Num (-6#1) * Var 23 / (Site 0 * Site 0 * Site 0 * Site 0) + Num (2#1) / (Site 0 * Site 0 * Site 0);
    Num (-6#1) * Var 23 / (Site 0 * Site 0 * Site 0 * Site 0)]]];
    [[[Num (-6#1) * Var 24 / (Site 0 * Site 0 * Site 0 * Site 0);
    Num (-6#1) * Var 24 / (Site 0 * Site 0 * Site 0 * Site 0);
    Num (-6#1) * Var 24 / (Site 0 * Site 0 * Site 0 * Site 0);
    Num (-6#1) * Var 24 / (Site 0 * Site 0 * Site 0 * Site 0);
    Num (-6#1) * Var 24 / (Site 0 * Site 0 * Site 0 * Site 0) + Num (2#1) / (Site 0 * Site 0 * Site 0)];
    [Num (-6#1) * Var 24 / (Site 0 * Site 0 * Site 0 * Site 0);
    Num (-6#1) * Var 24 / (Site 0 * Site 0 * Site 0 * Site 0);
    Num (-6#1) * Var 24 / (Site 0 * Site 0 * Site 0 * Site 0);
    Num (-6#1) * Var 24 / (Site 0 * Site 0 * Site 0 * Site 0);
    Num (-6#1) * Var 24 / (Site 0 * Site 0 * Site 0 * Site 0) + Num (2#1) / (Site 0 * Site 0 * Site 0)];
    [Num (-6#1) * Var 24 / (Site 0 * Site 0 * Site 0 * Site 0);
    Num (-6#1) * Var 24 / (Site 0 * Site 0 * Site 0 * Site 0);
    Num (-6#1) * Var 24 / (Site 0 * Site 0 * Site 0 * Site 0);
    Num (-6#1) * Var 24 / (Site 0 * Site 0 * Site 0 * Site 0);
    Num (-6#1) * Var 24 / (Site 0 * Site 0 * Site 0 * Site 0) + Num (2#1) / (Site 0 * Site 0 * Site 0)];
    [Num (-6#1) * Var 24 / (Site 0 * Site 0 * Site 0 * Site 0);
    Num (-6#1) * Var 24 / (Site 0 * Site 0 * Site 0 * Site 0);
    Num (-6#1) * Var 24 / (Site 0 * Site 0 * Site 0 * Site 0);
    Num (-6#1) * Var 24 / (Site 0 * Site 0 * Site 0 * Site 0);
    Num (-6#1) * Var 24 / (Site 0 * Site 0 * Site 0 * Site 0) + Num (2#1) / (Site 0 * Site 0 * Site 0)];
    [Num (-6#1) * Var 24 / (Site 0 * Site 0 * Site 0 * Site 0) + Num (2#1) / (Site 0 * Site 0 * Site 0);
    Num (-6#1) * Var 24 / (Site 0 * Site 0 * Site 0 * Site 0) + Num (2#1) / (Site 0 * Site 0 * Site 0);
    Num (-6#1) * Var 24 / (Site 0 * Site 0 * Site 0 * Site 0) + Num (2#1) / (Site 0 * Site 0 * Site 0);
    Num (-6#1) * Var 24 / (Site 0 * Site 0 * Site 0 * Site 0) + Num (2#1) / (Site 0 * Site 0 * Site 0);
    Num (-6#1) * Var 24 / (Site 0 * Site 0 * Site 0 * Site 0) + Num (2#1) / (Site 0 * Site 0 * Site 0) + Num (2#1) / (Site 0 * Site 0 * Site 0)]];
    [[Num (-6#1) * Var 24 / (Site 0 * Site 0 * Site 0 * Site 0);
    Num (-6#1) * Var 24 / (Site 0 * Site 0 * Site 0 * Site 0);
    Num (-6#1) * Var 24 / (Site 0 * Site 0 * Site 0 * Site 0);
    Num (-6#1) * Var 24 / (Site 0 * Site 0 * Site 0 * Site 0);
    Num (-6#1) * Var 24 / (Site 0 * Site 0 * Site 0 * Site 0) + Num (2#1) / (Site 0 * Site 0 * Site 0)];
    [Num (-6#1) * Var 24 / (Site 0 * Site 0 * Site 0 * Site 0);
    Num (-6#1) * Var 24 / (Site 0 * Site 0 * Site 0 * Site 0);
    Num (-6#1) * Var 24 / (Site 0 * Site 0 * Site 0 * Site 0);
    Num (-6#1) * Var 24 / (Site 0 * Site 0 * Site 0 * Site 0);
    Num (-6#1) * Var 24 / (Site 0 * Site 0 * Site 0 * Site 0) + Num (2#1) / (Site 0 * Site 0 * Site 0)];
    [Num (-6#1) * Var 24 / (Site 0 * Site 0 * Site 0 * Site 0);
    Num (-6#1) * Var 24 / (Site 0 * Site 0 * Site 0 * Site 0);
    Num (-6#1) * Var 24 / (Site 0 * Site 0 * Site 0 * Site 0);
    Num (-6#1) * Var 24 / (Site 0 * Site 0 * Site 0 * Site 0);
    Num (-6#1) * Var 24 / (Site 0 * Site 0 * Site 0 * Site 0) + Num (2#1) / (Site 0 * Site 0 * Site 0)];
    [Num (-6#1) * Var 24 / (Site 0 * Site 0 * Site 0 * Site 0);
    Num (-6#1) * Var 24 / (Site 0 * Site 0 * Site 0 * Site 0);
    Num (-6#1) * Var 24 / (Site 0 * Site 0 * Site 0 * Site 0);
    Num (-6#1) * Var 24 / (Site 0 * Site 0 * Site 0 * Site 0);
    Num (-6#1) * Var 24 / (Site 0 * Site 0 * Site 0 * Site 0) + Num (2#1) / (Site 0 * Site 0 * Site 0)];
    [Num (-6#1) * Var 24 / (Site 0 * Site 0 * Site 0 * Site 0) + Num (2#1) / (Site 0 * Site 0 * Site 0);
    Num (-6#1) * Var 24 / (Site 0 * Site 0 * Site 0 * Site 0) + Num (2#1) / (Site 0 * Site 0 * Site 0);
    Num (-6#1) * Var 24 / (Site 0 * Site 0 * Site 0 * Site 0) + Num (2#1) / (Site 0 * Site 0 * Site 0);
    Num (-6#1) * Var 24 / (Site 0 * Site 0 * Site 0 * Site 0) + Num (2#1) / (Site 0 * Site 0 * Site 0);
    Num (-6#1) * Var 24 / (Site 0 * Site 0 * Site 0 * Site 0) + Num (2#1) / (Site 0 * Site 0 * Site 0) + Num (2#1) / (Site 0 * Site 0 * Site 0)]];
    [[Num (-6#1) * Var 24 / (Site 0 * Site 0 * Site 0 * Site 0);
    Num (-6#1) * Var 24 / (Site 0 * Site 0 * Site 0 * Site 0);
    Num (-6#1) * Var 24 / (Site 0 * Site 0 * Site 0 * Site 0);
    Num (-6#1) * Var 24 / (Site 0 * Site 0 * Site 0 * Site 0);
    Num (-6#1) * Var 24 / (Site 0 * Site 0 * Site 0 * Site 0) + Num (2#1) / (Site 0 * Site 0 * Site 0)];
    [Num (-6#1) * Var 24 / (Site 0 * Site 0 * Site 0 * Site 0);
    Num (-6#1) * Var 24 / (Site 0 * Site 0 * Site 0 * Site 0);
    Num (-6#1) * Var 24 / (Site 0 * Site 0 * Site 0 * Site 0);
    Num (-6#1) * Var 24 / (Site 0 * Site 0 * Site 0 * Site 0);
    Num (-6#1) * Var 24 / (Site 0 * Site 0 * Site 0 * Site 0) + Num (2#1) / (Site 0 * Site 0 * Site 0)];
    [Num (-6#1) * Var 24 / (Site 0 * Site 0 * Site 0 * Site 0);
    Num (-6#1) * Var 24 / (Site 0 * Site 0 * Site 0 * Site 0);
    Num (-6#1) * Var 24 / (Site 0 * Site 0 * Site 0 * Site 0);
    Num (-6#1) * Var 24 / (Site 0 * Site 0 * Site 0 * Site 0);
    Num (-6#1) * Var 24 / (Site 0 * Site 0 * Site 0 * Site 0) + Num (2#1) / (Site 0 * Site 0 * Site 0)];
    [Num (-6#1) * Var 24 / (Site 0 * Site 0 * Site 0 * Site 0);
    Num (-6#1) * Var 24 / (Site 0 * Site 0 * Site 0 * Site 0);
    Num (-6#1) * Var 24 / (Site 0 * Site 0 * Site 0 * Site 0);
    Num (-6#1) * Var 24 / (Site 0 * Site 0 * Site 0 * Site 0);
    Num (-6#1) * Var 24 / (Site 0 * Site 0 * Site 0 * Site 0) + Num (2#1) / (Site 0 * Site 0 * Site 0)];
    [Num (-6#1) * Var 24 / (Site 0 * Site 0 * Site 0 * Site 0) + Num (2#1) / (Site 0 * Site 0 * Site 0);
    Num (-6#1) * Var 24 / (Site 0 * Site 0 * Site 0 * Site 0) + Num (2#1) / (Site 0 * Site 0 * Site 0);
    Num (-6#1) * Var 24 / (Site 0 * Site 0 * Site 0 * Site 0) + Num (2#1) / (Site 0 * Site 0 * Site 0);
    Num (-6#1) * Var 24 / (Site 0 * Site 0 * Site 0 * Site 0) + Num (2#1) / (Site 0 * Site 0 * Site 0);
    Num (-6#1) * Var 24 / (Site 0 * Site 0 * Site 0 * Site 0) + Num (2#1) / (Site 0 * Site 0 * Site 0) + Num (2#1) / (Site 0 * Site 0 * Site 0)]];
    [[Num (-6#1) * Var 24 / (Site 0 * Site 0 * Site 0 * Site 0);
    Num (-6#1) * Var 24 / (Site 0 * Site 0 * Site 0 * Site 0);
    Num (-6#1) * Var 24 / (Site 0 * Site 0 * Site 0 * Site 0);
    Num (-6#1) * Var 24 / (Site 0 * Site 0 * Site 0 * Site 0);
    Num (-6#1) * Var 24 / (Site 0 * Site 0 * Site 0 * Site 0) + Num (2#1) / (Site 0 * Site 0 * Site 0)];
    [Num (-6#1) * Var 24 / (Site 0 * Site 0 * Site 0 * Site 0);
    Num (-6#1) * Var 24 / (Site 0 * Site 0 * Site 0 * Site 0);
    Num (-6#1) * Var 24 / (Site 0 * Site 0 * Site 0 * Site 0);
    Num (-6#1) * Var 24 / (Site 0 * Site 0 * Site 0 * Site 0);
    Num (-6#1) * Var 24 / (Site 0 * Site 0 * Site 0 * Site 0) + Num (2#1) / (Site 0 * Site 0 * Site 0)];
    [Num (-6#1) * Var 24 / (Site 0 * Site 0 * Site 0 * Site 0);
    Num (-6#1) * Var 24 / (Site 0 * Site 0 * Site 0 * Site 0);
    Num (-6#1) * Var 24 / (Site 0 * Site 0 * Site 0 * Site 0);
    Num (-6#1) * Var 24 / (Site 0 * Site 0 * Site 0 * Site 0);
    Num (-6#1) * Var 24 / (Site 0 * Site 0 * Site 0 * Site 0) + Num (2#1) / (Site 0 * Site 0 * Site 0)];
    [Num (-6#1) * Var 24 / (Site 0 * Site 0 * Site 0 * Site 0);
    Num (-6#1) * Var 24 / (Site 0 * Site 0 * Site 0 * Site 0);
    Num (-6#1) * Var 24 / (Site 0 * Site 0 * Site 0 * Site 0);
    Num (-6#1) * Var 24 / (Site 0 * Site 0 * Site 0 * Site 0);
    Num (-6#1) * Var 24 / (Site 0 * Site 0 * Site 0 * Site 0) + Num (2#1) / (Site 0 * Site 0 * Site 0)];
    [Num (-6#1) * Var 24 / (Site 0 * Site 0 * Site 0 * Site 0) + Num (2#1) / (Site 0 * Site 0 * Site 0);
    Num (-6#1) * Var 24 / (Site 0 * Site 0 * Site 0 * Site 0) + Num (2#1) / (Site 0 * Site 0 * Site 0);
    Num (-6#1) * Var 24 / (Site 0 * Site 0 * Site 0 * Site 0) + Num (2#1) / (Site 0 * Site 0 * Site 0);
    Num (-6#1) * Var 24 / (Site 0 * Site 0 * Site 0 * Site 0) + Num (2#1) / (Site 0 * Site 0 * Site 0);
    Num (-6#1) * Var 24 / (Site 0 * Site 0 * Site 0 * Site 0) + Num (2#1) / (Site 0 * Site 0 * Site 0) + Num (2#1) / (Site 0 * Site 0 * Site 0)]];
    [[Num (-6#1) * Var 24 / (Site 0 * Site 0 * Site 0 * Site 0) + Num (2#1) / (Site 0 * Site 0 * Site 0);
    Num (-6#1) * Var 24 / (Site 0 * Site 0 * Site 0 * Site 0) + Num (2#1) / (Site 0 * Site 0 * Site 0);
    Num (-6#1) * Var 24 / (Site 0 * Site 0 * Site 0 * Site 0) + Num (2#1) / (Site 0 * Site 0 * Site 0);
    Num (-6#1) * Var 24 / (Site 0 * Site 0 * Site 0 * Site 0) + Num (2#1) / (Site 0 * Site 0 * Site 0);
    Num (-6#1) * Var 24 / (Site 0 * Site 0 * Site 0 * Site 0) + Num (2#1) / (Site 0 * Site 0 * Site 0) + Num (2#1) / (Site 0 * Site 0 * Site 0)];
    [Num (-6#1) * Var 24 / (Site 0 * Site 0 * Site 0 * Site 0) + Num (2#1) / (Site 0 * Site 0 * Site 0);
    Num (-6#1) * Var 24 / (Site 0 * Site 0 * Site 0 * Site 0) + Num (2#1) / (Site 0 * Site 0 * Site 0);
    Num (-6#1) * Var 24 / (Site 0 * Site 0 * Site 0 * Site 0) + Num (2#1) / (Site 0 * Site 0 * Site 0);
    Num (-6#1) * Var 24 / (Site 0 * Site 0 * Site 0 * Site 0) + Num (2#1) / (Site 0 * Site 0 * Site 0);
    Num (-6#1) * Var 24 / (Site 0 * Site 0 * Site 0 * Site 0) + Num (2#1) / (Site 0 * Site 0 * Site 0) + Num (2#1) / (Site 0 * Site 0 * Site 0)];
    [Num (-6#1) * Var 24 / (Site 0 * Site 0 * Site 0 * Site 0) + Num (2#1) / (Site 0 * Site 0 * Site 0);
    Num (-6#1) * Var 24 / (Site 0 * Site 0 * Site 0 * Site 0) + Num (2#1) / (Site 0 * Site 0 * Site 0);
    Num (-6#1) * Var 24 / (Site 0 * Site 0 * Site 0 * Site 0) + Num (2#1) / (Site 0 * Site 0 * Site 0);
    Num (-6#1) * Var 24 / (Site 0 * Site 0 * Site 0 * Site 0) + Num (2#1) / (Site 0 * Site 0 * Site 0);
    Num (-6#1) * Var 24 / (Site 0 * Site 0 * Site 0 * Site 0) + Num (2#1) / (Site 0 * Site 0 * Site 0) + Num (2#1) / (Site 0 * Site 0 * Site 0)];
    [Num (-6#1) * Var 24 / (Site 0 * Site 0 * Site 0 * Site 0) + Num (2#1) / (Site 0 * Site 0 * Site 0);
    Num (-6#1) * Var 24 / (Site 0 * Site 0 * Site 0 * Site 0) + Num (2#1) / (Site 0 * Site 0 * Site 0);
    Num (-6#1) * Var 24 / (Site 0 * Site 0 * Site 0 * Site 0) + Num (2#1) / (Site 0 * Site 0 * Site 0);
    Num (-6#1) * Var 24 / (Site 0 * Site 0 * Site 0 * Site 0) + Num (2#1) / (Site 0 * Site 0 * Site 0);
    Num (-6#1) * Var 24 / (Site 0 * Site 0 * Site 0 * Site 0) + Num (2#1) / (Site 0 * Site 0 * Site 0) + Num (2#1) / (Site 0 * Site 0 * Site 0)];
    [Num (-6#1) * Var 24 / (Site 0 * Site 0 * Site 0 * Site 0) + Num (2#1) / (Site 0 * Site 0 * Site 0) + Num (2#1) / (Site 0 * Site 0 * Site 0);
    Num (-6#1) * Var 24 / (Site 0 * Site 0 * Site 0 * Site 0) + Num (2#1) / (Site 0 * Site 0 * Site 0) + Num (2#1) / (Site 0 * Site 0 * Site 0);
    Num (-6#1) * Var 24 / (Site 0 * Site 0 * Site 0 * Site 0) + Num (2#1) / (Site 0 * Site 0 * Site 0) + Num (2#1) / (Site 0 * Site 0 * Site 0);
    Num (-6#1) * Var 24 / (Site 0 * Site 0 * Site 0 * Site 0) + Num (2#1) / (Site 0 * Site 0 * Site 0) + Num (2#1) / (Site 0 * Site 0 * Site 0);
    Num (-6#1) * Var 24 / (Site 0 * Site 0 * Site 0 * Site 0) + Num (2#1) / (Site 0 * Site 0 * Site 0) + Num (2#1) / (Site 0 * Site 0 * Site 0) + Num (2#1) / (Site 0 * Site 0 * Site 0)]]]].
(** sources/biotiteTaj.c 945-1126: conTaj, inpMask THIRD, output x[i] from r *)
Definition Taj_con_xr :=
  [Num (1#1) - Var 2 - Var 3 - Var 4 - Var 5;
    Var 2;
    Var 3;
    Var 4;
    Var 5].
(** sources/biotiteTaj.c 945-1126: conTaj, inpMask THIRD, output dr[i][j] *)
Definition Taj_con_dr :=
  [[Num (-1#1);
    Num (-1#1);
    Num (-1#1);
    Num (-1#1)];
    [Num (1#1);
    Num (0#1);
    Num (0#1);
    Num (0#1)];
    [Num (0#1);
    Num (1#1);
    Num (0#1);
    Num (0#1)];
    [Num (0#1);
    Num (0#1);
    Num (1#1);
    Num (0#1)];
    [Num (0#1);
    Num (0#1);
    Num (0#1);
    Num (1#1)]].
(** sources/biotiteTaj.c 945-1126: x[i] from r is set to zero when it is smaller in absolute value than this number *)
Definition Taj_con_snap : list (nat * Q) := [].
Definition conTaj : conv :=
  mkConv "biotiteTaj" 5 4 Taj_con_r Taj_con_x Taj_con_dm Taj_con_d2m Taj_con_d3m Taj_con_xr Taj_con_dr Taj_con_snap.

(** sources/clinopyroxene.c 4261-4540: conCpx, inpMask SECOND, output r[i] from m *)
Definition Cpx_con_r :=
  [Var 22 / Site 0;
    (Var 23 + Var 26 / Num (2#1)) / Site 0;
    (Var 24 - Var 26 / Num (2#1)) / Site 0;
    (Var 25 + Var 26 / Num (2#1)) / Site 0;
    Var 26 / Site 0;
    Var 21 / Site 0].
(** sources/clinopyroxene.c 4261-4540: conCpx, inpMask SECOND, output x[i] from m *)
Definition Cpx_con_x :=
  [Var 20 / Site 0;
    Var 21 / Site 0;
    Var 22 / Site 0;
    Var 23 / Site 0;
    Var 24 / Site 0;
    Var 25 / Site 0;
    Var 26 / Site 0].
(** sources/clinopyroxene.c 4261-4540: conCpx, inpMask SECOND, output dm[i][j] *)
Definition Cpx_con_dm :=
  [[(- Var 22) / (Site 0 * Site 0);
    (- Var 22) / (Site 0 * Site 0);
    (- Var 22) / (Site 0 * Site 0) + Num (1#1) / Site 0;
    (- Var 22) / (Site 0 * Site 0);
    (- Var 22) / (Site 0 * Site 0);
    (- Var 22) / (Site 0 * Site 0);
    (- Var 22) / (Site 0 * Site 0)];
    [(- (Var 23 + Var 26 / Num (2#1))) / (Site 0 * Site 0);
    (- (Var 23 + Var 26 / Num (2#1))) / (Site 0 * Site 0);
    (- (Var 23 + Var 26 / Num (2#1))) / (Site 0 * Site 0);
    (- (Var 23 + Var 26 / Num (2#1))) / (Site 0 * Site 0) + Num (1#1) / Site 0;
    (- (Var 23 + Var 26 / Num (2#1))) / (Site 0 * Site 0);
    (- (Var 23 + Var 26 / Num (2#1))) / (Site 0 * Site 0);
    (- (Var 23 + Var 26 / Num (2#1))) / (Site 0 * Site 0) + Num (1#2) / Site 0];
    [(- (Var 24 - Var 26 / Num (2#1))) / (Site 0 * Site 0);
    (- (Var 24 - Var 26 / Num (2#1))) / (Site 0 * Site 0);
    (- (Var 24 - Var 26 / Num (2#1))) / (Site 0 * Site 0);
    (- (Var 24 - Var 26 / Num (2#1))) / (Site 0 * Site 0);
    (- (Var 24 - Var 26 / Num (2#1))) / (Site 0 * Site 0) + Num (1#1) / Site 0;
    (- (Var 24 - Var 26 / Num (2#1))) / (Site 0 * Site 0);
    (- (Var 24 - Var 26 / Num (2#1))) / (Site 0 * Site 0) - Num (1#2) / Site 0];
    [(- (Var 25 + Var 26 / Num (2#1))) / (Site 0 * Site 0);
    (- (Var 25 + Var 26 / Num (2#1))) / (Site 0 * Site 0);
    (- (Var 25 + Var 26 / Num (2#1))) / (Site 0 * Site 0);
    (- (Var 25 + Var 26 / Num (2#1))) / (Site 0 * Site 0);
    (- (Var 25 + Var 26 / Num (2#1))) / (Site 0 * Site 0);
    (- (Var 25 + Var 26 / Num (2#1))) / (Site 0 * Site 0) + Num (1#1) / Site 0;
    (- (Var 25 + Var 26 / Num (2#1))) / (Site 0 * Site 0) + Num (1#2) / Site 0];
    [(- Var 26) / (Site 0 * Site 0);
    (- Var 26) / (Site 0 * Site 0);
    (- Var 26) / (Site 0 * Site 0);
    (- Var 26) / (Site 0 * Site 0);
    (- Var 26) / (Site 0 * Site 0);
    (- Var 26) / (Site 0 * Site 0);
    (- Var 26) / (Site 0 * Site 0) + Num (1#1) / Site 0];
    [(- Var 21) / (Site 0 * Site 0);
    (- Var 21) / (Site 0 * Site 0) + Num (1#1) / Site 0;
    (- Var 21) / (Site 0 * Site 0);
    (- Var 21) / (Site 0 * Site 0);
    (- Var 21) / (Site 0 * Site 0);
    (- Var 21) / (Site 0 * Site 0);
    (- Var 21) / (Site 0 * Site 0)]].
(** sources/clinopyroxene.c 4261-4540: conCpx, inpMask SECOND, output d2m[i][j][k] *)
Definition Cpx_con_d2m :=
  [[[Num (2#1) * Var 22 / (Site 0 * Site 0 * Site 0);
    Num (2#1) * Var 22 / (Site 0 * Site 0 * Site 0);
    Num (2#1) * Var 22 / (Site 0 * Site 0 * Site 0) - Num (1#1) / (Site 0 * Site 0);
    Num (2#1) * Var 22 / (Site 0 * Site 0 * Site 0);
    Num (2#1) * Var 22 / (Site 0 * Site 0 * Site 0);
    Num (2#1) * Var 22 / (Site 0 * Site 0 * Site 0);
    Num (2#1) * Var 22 / (Site 0 * Site 0 * Site 0)];
    [Num (2#1) * Var 22 / (Site 0 * Site 0 * Site 0);
    Num (2#1) * Var 22 / (Site 0 * Site 0 * Site 0);
    Num (2#1) * Var 22 / (Site 0 * Site 0 * Site 0) - Num (1#1) / (Site 0 * Site 0);
    Num (2#1) * Var 22 / (Site 0 * Site 0 * Site 0);
    Num (2#1) * Var 22 / (Site 0 * Site 0 * Site 0);
    Num (2#1) * Var 22 / (Site 0 * Site 0 * Site 0);
    Num (2#1) * Var 22 / (Site 0 * Site 0 * Site 0)];
    [Num (2#1) * Var 22 / (Site 0 * Site 0 * Site 0) - Num (1#1) / (Site 0 * Site 0);
    Num (2#1) * Var 22 / (Site 0 * Site 0 * Site 0) - Num (1#1) / (Site 0 * Site 0);
    Num (2#1) * Var 22 / (Site 0 * Site 0 * Site 0) - Num (1#1) / (Site 0 * Site 0) - Num (1#1) / (Site 0 * Site 0);
    Num (2#1) * Var 22 / (Site 0 * Site 0 * Site 0) - Num (1#1) / (Site 0 * Site 0);
    Num (2#1) * Var 22 / (Site 0 * Site 0 * Site 0) - Num (1#1) / (Site 0 * Site 0);
    Num (2#1) * Var 22 / (Site 0 * Site 0 * Site 0) - Num (1#1) / (Site 0 * Site 0);
    Num (2#1) * Var 22 / (Site 0 * Site 0 * Site 0) - Num (1#1) / (Site 0 * Site 0)];
    [Num (2#1) * Var 22 / (Site 0 * Site 0 * Site 0);
    Num (2#1) * Var 22 / (Site 0 * Site 0 * Site 0);
    Num (2#1) * Var 22 / (Site 0 * Site 0 * Site 0) - Num (1#1) / (Site 0 * Site 0);
    Num (2#1) * Var 22 / (Site 0 * Site 0 * Site 0);
    Num (2#1) * Var 22 / (Site 0 * Site 0 * Site 0);
    Num (2#1) * Var 22 / (Site 0 * Site 0 * Site 0);
    Num (2#1) * Var 22 / (Site 0 * Site 0 * Site 0)];
    [Num (2#1) * Var 22 / (Site 0 * Site 0 * Site 0);
    Num (2#1) * Var 22 / (Site 0 * Site 0 * Site 0);
    Num (2#1) * Var 22 / (Site 0 * Site 0 * Site 0) - Num (1#1) / (Site 0 * Site 0);
    Num (2#1) * Var 22 / (Site 0 * Site 0 * Site 0);
    Num (2#1) * Var 22 / (Site 0 * Site 0 * Site 0);
    Num (2#1) * Var 22 / (Site 0 * Site 0 * Site 0);
    Num (2#1) * Var 22 / (Site 0 * Site 0 * Site 0)];
    [Num (2#1) * Var 22 / (Site 0 * Site 0 * Site 0);
    Num (2#1) * Var 22 / (Site 0 * Site 0 * Site 0);
    Num (2#1) * Var 22 / (Site 0 * Site 0 * Site 0) - Num (1#1) / (Site 0 * Site 0);
    Num (2#1) * Var 22 / (Site 0 * Site 0 * Site 0);
    Num (2#1) * Var 22 / (Site 0 * Site 0 * Site 0);
    Num (2#1) * Var 22 / (Site 0 * Site 0 * Site 0);
    Num (2#1) * Var 22 / (Site 0 * Site 0 * Site 0)];
    [Num (2#1) * Var 22 / (Site 0 * Site 0 * Site 0);
    Num (2#1) * Var 22 / (Site 0 * Site 0 * Site 0);
    Num (2#1) * Var 22 / (Site 0 * Site 0 * Site 0) - Num (1#1) / (Site 0 * Site 0);
    Num (2#1) * Var 22 / (Site 0 * Site 0 * Site 0);
    Num (2#1) * Var 22 / (Site 0 * Site 0 * Site 0);
    Num (2#1) * Var 22 / (Site 0 * Site 0 * Site 0);
    Num (2#1) * Var 22 / (Site 0 * Site 0 * Site 0)]];
    [[Num (2#1) * (Var 23 + Var 26 / Num (2#1)) / (Site 0 * Site 0 * Site 0);
    Num (2#1) * (Var 23 + Var 26 / Num (2#1)) / (Site 0 * Site 0 * Site 0);
    Num (2#1) * (Var 23 + Var 26 / Num (2#1)) / (Site 0 * Site 0 * Site 0);
    Num (2#1) * (Var 23 + Var 26 / Num (2#1)) / (Site 0 * Site 0 * Site 0) - Num (1#1) / (Site 0 * Site 0);
    Num (2#1) * (Var 23 + Var 26 / Num (2#1)) / (Site 0 * Site 0 * Site 0);
    Num (2#1) * (Var 23 + Var 26 / Num (2#1)) / (Site 0 * Site 0 * Site 0);
    Num (2#1) * (Var 23 + Var 26 / Num (2#1)) / (Site 0 * Site 0 * Site 0) - Num (1#2) / (Site 0 * Site 0)];
    [Num (2#1) * (Var 23 + Var 26 / Num (2#1)) / (Site 0 * Site 0 * Site 0);
    Num (2#1) * (Var 23 + Var 26 / Num (2#1)) / (Site 0 * Site 0 * Site 0);
    Num (2#1) * (Var 23 + Var 26 / Num (2#1)) / (Site 0 * Site 0 * Site 0);
    Num (2#1) * (Var 23 + Var 26 / Num (2#1)) / (Site 0 * Site 0 * Site 0) - Num (1#1) / (Site 0 * Site 0);
    Num (2#1) * (Var 23 + Var 26 / Num (2#1)) / (Site 0 * Site 0 * Site 0);
    Num (2#1) * (Var 23 + Var 26 / Num (2#1)) / (Site 0 * Site 0 * Site 0);
    Num (2#1) * (Var 23 + Var 26 / Num (2#1)) / (Site 0 * Site 0 * Site 0) - Num (1#2) / (Site 0 * Site 0)];
    [Num (2#1) * (Var 23 + Var 26 / Num (2#1)) / (Site 0 * Site 0 * Site 0);
    Num (2#1) * (Var 23 + Var 26 / Num (2#1)) / (Site 0 * Site 0 * Site 0);
    Num (2#1) * (Var 23 + Var 26 / Num (2#1)) / (Site 0 * Site 0 * Site 0);
    Num (2#1) * (Var 23 + Var 26 / Num (2#1)) / (Site 0 * Site 0 * Site 0) - Num (1#1) / (Site 0 * Site 0);
    Num (2#1) * (Var 23 + Var 26 / Num (2#1)) / (Site 0 * Site 0 * Site 0);
    Num (2#1) * (Var 23 + Var 26 / Num (2#1)) / (Site 0 * Site 0 * Site 0);
    Num (2#1) * (Var 23 + Var 26 / Num (2#1)) / (Site 0 * Site 0 * Site 0) - Num (1#2) / (Site 0 * Site 0)];
    [Num (2#1) * (Var 23 + Var 26 / Num (2#1)) / (Site 0 * Site 0 * Site 0) - Num (1#1) / (Site 0 * Site 0);
    Num (2#1) * (Var 23 + Var 26 / Num (2#1)) / (Site 0 * Site 0 * Site 0) - Num (1#1) / (Site 0 * Site 0);
    Num (2#1) * (Var 23 + Var 26 / Num (2#1)) / (Site 0 * Site 0 * Site 0) - Num (1#1) / (Site 0 * Site 0);
    Num (2#1) * (Var 23 + Var 26 / Num (2#1)) / (Site 0 * Site 0 * Site 0) - Num (1#1) / (Site 0 * Site 0) - Num (1#1) / (Site 0 * Site 0);
    Num (2#1) * (Var 23 + Var 26 / Num (2#1)) / (Site 0 * Site 0 * Site 0) - Num (1#1) / (Site 0 * Site 0);
    Num (2#1) * (Var 23 + Var 26 / Num (2#1)) / (Site 0 * Site 0 * Site 0) - Num (1#1) / (Site 0 * Site 0);
    Num (2#1) * (Var 23 + Var 26 / Num (2#1)) / (Site 0 * Site 0 * Site 0) - Num (1#1) / (Site 0 * Site 0) - Num (1#2) / (Site 0 * Site 0)];
    [Num (2#1) * (Var 23 + Var 26 / Num (2#1)) / (Site 0 * Site 0 * Site 0);
    Num (2#1) * (Var 23 + Var 26 / Num (2#1)) / (Site 0 * Site 0 * Site 0);
    Num (2#1) * (Var 23 + Var 26 / Num (2#1)) / (Site 0 * Site 0 * Site 0);
    Num (2#1) * (Var 23 + Var 26 / Num (2#1)) / (Site 0 * Site 0 * Site 0) - Num (1#1) / (Site 0 * Site 0);
    Num (2#1) * (Var 23 + Var 26 / Num (2#1)) / (Site 0 * Site 0 * Site 0);
    Num (2#1) * (Var 23 + Var 26 / Num (2#1)) / (Site 0 * Site 0 * Site 0);
    Num (2#1) * (Var 23 + Var 26 / Num (2#1)) / (Site 0 * Site 0 * Site 0) - Num (1#2) / (Site 0 * Site 0)];
    [Num (2#1) * (Var 23 + Var 26 / Num (2#1)) / (Site 0 * Site 0 * Site 0);
    Num (2#1) * (Var 23 + Var 26 / Num (2#1)) / (Site 0 * Site 0 * Site 0);
    Num (2#1) * (Var 23 + Var 26 / Num (2#1)) / (Site 0 * Site 0 * Site 0);
    Num (2#1) * (Var 23 + Var 26 / Num (2#1)) / (Site 0 * Site 0 * Site 0) - Num (1#1) / (Site 0 * Site 0);
    Num (2#1) * (Var 23 + Var 26 / Num (2#1)) / (Site 0 * Site 0 * Site 0);
    Num (2#1) * (Var 23 + Var 26 / Num (2#1)) / (Site 0 * Site 0 * Site 0);
    Num (2#1) * (Var 23 + Var 26 / Num (2#1)) / (Site 0 * Site 0 * Site 0) - Num (1#2) / (Site 0 * Site 0)];
    [Num (2#1) * (Var 23 + Var 26 / Num (2#1)) / (Site 0 * Site 0 * Site 0) - Num (1#2) / (Site 0 * Site 0);
    Num (2#1) * (Var 23 + Var 26 / Num (2#1)) / (Site 0 * Site 0 * Site 0) - Num (1#2) / (Site 0 * Site 0);
    Num (2#1) * (Var 23 + Var 26 / Num (2#1)) / (Site 0 * Site 0 * Site 0) - Num (1#2) / (Site 0 * Site 0);
    Num (2#1) * (Var 23 + Var 26 / Num (2#1)) / (Site 0 * Site 0 * Site 0) - Num (1#1) / (Site 0 * Site 0) - Num (1#2) / (Site 0 * Site 0);
    Num (2#1) * (Var 23 + Var 26 / Num (2#1)) / (Site 0 * Site 0 * Site 0) - Num (1#2) / (Site 0 * Site 0);
    Num (2#1) * (Var 23 + Var 26 / Num (2#1)) / (Site 0 * Site 0 * Site 0) - Num (1#2) / (Site 0 * Site 0);
    Num (2#1) * (Var 23 + Var 26 / Num (2#1)) / (Site 0 * Site 0 * Site 0) - Num (1#2) / (Site 0 * Site 0) - Num (1#2) / (Site 0 * Site 0)]];
    [[Num (2#1) * (Var 24 - Var 26 / Num (2#1)) / (Site 0 * Site 0 * Site 0);
    Num (2#1) * (Var 24 - Var 26 / Num (2#1)) / (Site 0 * Site 0 * Site 0);
    Num (2#1) * (Var 24 - Var 26 / Num (2#1)) / (Site 0 * Site 0 * Site 0);
    Num (2#1) * (Var 24 - Var 26 / Num (2#1)) / (Site 0 * Site 0 * Site 0);
    Num (2#1) * (Var 24 - Var 26 / Num (2#1)) / (Site 0 * Site 0 * Site 0) - Num (1#1) / (Site 0 * Site 0);
    Num (2#1) * (Var 24 - Var 26 / Num (2#1)) / (Site 0 * Site 0 * Site 0);
    Num (2#1) * (Var 24 - Var 26 / Num (2#1)) / (Site 0 * Site 0 * Site 0) + Num (1#2) / (Site 0 * Site 0)];
    [Num (2#1) * (Var 24 - Var 26 / Num (2#1)) / (Site 0 * Site 0 * Site 0);
    Num (2#1) * (Var 24 - Var 26 / Num (2#1)) / (Site 0 * Site 0 * Site 0);
    Num (2#1) * (Var 24 - Var 26 / Num (2#1)) / (Site 0 * Site 0 * Site 0);
    Num (2#1) * (Var 24 - Var 26 / Num (2#1)) / (Site 0 * Site 0 * Site 0);
    Num (2#1) * (Var 24 - Var 26 / Num (2#1)) / (Site 0 * Site 0 * Site 0) - Num (1#1) / (Site 0 * Site 0);
    Num (2#1) * (Var 24 - Var 26 / Num (2#1)) / (Site 0 * Site 0 * Site 0);
    Num (2#1) * (Var 24 - Var 26 / Num (2#1)) / (Site 0 * Site 0 * Site 0) + Num (1#2) / (Site 0 * Site 0)];
    [Num (2#1) * (Var 24 - Var 26 / Num (2#1)) / (Site 0 * Site 0 * Site 0);
    Num (2#1) * (Var 24 - Var 26 / Num (2#1)) / (Site 0 * Site 0 * Site 0);
    Num (2#1) * (Var 24 - Var 26 / Num (2#1)) / (Site 0 * Site 0 * Site 0);
    Num (2#1) * (Var 24 - Var 26 / Num (2#1)) / (Site 0 * Site 0 * Site 0);
    Num (2#1) * (Var 24 - Var 26 / Num (2#1)) / (Site 0 * Site 0 * Site 0) - Num (1#1) / (Site 0 * Site 0);
    Num (2#1) * (Var 24 - Var 26 / Num (2#1)) / (Site 0 * Site 0 * Site 0);
    Num (2#1) * (Var 24 - Var 26 / Num (2#1)) / (Site 0 * Site 0 * Site 0) + Num (1#2) / (Site 0 * Site 0)];
    [Num (2#1) * (Var 24 - Var 26 / Num (2#1)) / (Site 0 * Site 0 * Site 0);
    Num (2#1) * (Var 24 - Var 26 / Num (2#1)) / (Site 0 * Site 0 * Site 0);
    Num (2#1) * (Var 24 - Var 26 / Num (2#1)) / (Site 0 * Site 0 * Site 0);
    Num (2#1) * (Var 24 - Var 26 / Num (2#1)) / (Site 0 * Site 0 * Site 0);
    Num (2#1) * (Var 24 - Var 26 / Num (2#1)) / (Site 0 * Site 0 * Site 0) - Num (1#1) / (Site 0 * Site 0);
    Num (2#1) * (Var 24 - Var 26 / Num (2#1)) / (Site 0 * Site 0 * Site 0);
    Num (2#1) * (Var 24 - Var 26 / Num (2#1)) / (Site 0 * Site 0 * Site 0) + Num (1#2) / (Site 0 * Site 0)];
    [Num (2#1) * (Var 24 - Var 26 / Num (2#1)) / (Site 0 * Site 0 * Site 0) - Num (1#1) / (Site 0 * Site 0);
    Num (2#1) * (Var 24 - Var 26 / Num (2#1)) / (Site 0 * Site 0 * Site 0) - Num (1#1) / (Site 0 * Site 0);
    Num (2#1) * (Var 24 - Var 26 / Num (2#1)) / (Site 0 * Site 0 * Site 0) - Num (1#1) / (Site 0 * Site 0);
    Num (2#1) * (Var 24 - Var 26 / Num (2#1)) / (Site 0 * Site 0 * Site 0) - Num (1#1) / (Site 0 * Site 0);
    Num (2#1) * (Var 24 - Var 26 / Num (2#1)) / (Site 0 * Site 0 * Site 0) - Num (1#1) / (Site 0 * Site 0) - Num (1#1) / (Site 0 * Site 0);
    Num (2#1) * (Var 24 - Var 26 / Num (2#1)) / (Site 0 * Site 0 * Site 0) - Num (1#1) / (Site 0 * Site 0);
    Num (2#1) * (Var 24 - Var 26 / Num (2#1)) / (Site 0 * Site 0 * Site 0) - Num (1#1) / (Site 0 * Site 0) + Num (1#2) / (Site 0 * Site 0)];
    [Num (2#1) * (Var 24 - Var 26 / Num (2#1)) / (Site 0 * Site 0 * Site 0);
    Num (2#1) * (Var 24 - Var 26 / Num (2#1)) / (Site 0 * Site 0 * Site 0);
    Num (2#1) * (Var 24 - Var 26 / Num (2#1)) / (Site 0 * Site 0 * Site 0);
    Num (2#1) * (Var 24 - Var 26 / Num (2#1)) / (Site 0 * Site 0 * Site 0);
    Num (2#1) * (Var 24 - Var 26 / Num (2#1)) / (Site 0 * Site 0 * Site 0) - Num (1#1) / (Site 0 * Site 0);
    Num (2#1) * (Var 24 - Var 26 / Num (2#1)) / (Site 0 * Site 0 * Site 0);
    Num (2#1) * (Var 24 - Var 26 / Num (2#1)) / (Site 0 * Site 0 * Site 0) + Num (1#2) / (Site 0 * Site 0)];
    [Num (2#1) * (Var 24 - Var 26 / Num (2#1)) / (Site 0 * Site 0 * Site 0) + Num (1#2) / (Site 0 * Site 0);
    Num (2#1) * (Var 24 - Var 26 / Num (2#1)) / (Site 0 * Site 0 * Site 0) + Num (1#2) / (Site 0 * Site 0);
    Num (2#1) * (Var 24 - Var 26 / Num (2#1)) / (Site 0 * Site 0 * Site 0) + Num (1#2) / (Site 0 * Site 0);
    Num (2#1) * (Var 24 - Var 26 / Num (2#1)) / (Site 0 * Site 0 * Site 0) + Num (1#2) / (Site 0 * Site 0);
    Num (2#1) * (Var 24 - Var 26 / Num (2#1)) / (Site 0 * Site 0 * Site 0) - Num (1#1) / (Site 0 * Site 0) + Num (1#2) / (Site 0 * Site 0);
    Num (2#1) * (Var 24 - Var 26 / Num (2#1)) / (Site 0 * Site 0 * Site 0) + Num (1#2) / (Site 0 * Site 0);
    Num (2#1) * (Var 24 - Var 26 / Num (2#1)) / (Site 0 * Site 0 * Site 0) + Num (1#2) / (Site 0 * Site 0) + Num (1#2) / (Site 0 * Site 0)]];
    [[Num (2#1) * (Var 25 + Var 26 / Num (2#1)) / (Site 0 * Site 0 * Site 0);
    Num (2#1) * (Var 25 + Var 26 / Num (2#1)) / (Site 0 * Site 0 * Site 0);
    Num (2#1) * (Var 25 + Var 26 / Num (2#1)) / (Site 0 * Site 0 * Site 0);
    Num (2#1) * (Var 25 + Var 26 / Num (2#1)) / (Site 0 * Site 0 * Site 0);
    Num (2#1) * (Var 25 + Var 26 / Num (2#1)) / (Site 0 * Site 0 * Site 0);
    Num (2#1) * (Var 25 + Var 26 / Num (2#1)) / (Site 0 * Site 0 * Site 0) - Num (1#1) / (Site 0 * Site 0);
    Num (2#1) * (Var 25 + Var 26 / Num (2#1)) / (Site 0 * Site 0 * Site 0) - Num (1#2) / (Site 0 * Site 0)];
    [Num (2#1) * (Var 25 + Var 26 / Num (2#1)) / (Site 0 * Site 0 * Site 0);
    Num (2#1) * (Var 25 + Var 26 / Num (2#1)) / (Site 0 * Site 0 * Site 0);
    Num (2#1) * (Var 25 + Var 26 / Num (2#1)) / (Site 0 * Site 0 * Site 0);
    Num (2#1) * (Var 25 + Var 26 / Num (2#1)) / (Site 0 * Site 0 * Site 0);
    Num (2#1) * (Var 25 + Var 26 / Num (2#1)) / (Site 0 * Site 0 * Site 0);
    Num (2#1) * (Var 25 + Var 26 / Num (2#1)) / (Site 0 * Site 0 * Site 0) - Num (1#1) / (Site 0 * Site 0);
    Num (2#1) * (Var 25 + Var 26 / Num (2#1)) / (Site 0 * Site 0 * Site 0) - Num (1#2) / (Site 0 * Site 0)];
    [Num (2#1) * (Var 25 + Var 26 / Num (2#1)) / (Site 0 * Site 0 * Site 0);
    Num (2#1) * (Var 25 + Var 26 / Num (2#1)) / (Site 0 * Site 0 * Site 0);
    Num (2#1) * (Var 25 + Var 26 / Num (2#1)) / (Site 0 * Site 0 * Site 0);
    Num (2#1) * (Var 25 + Var 26 / Num (2#1)) / (Site 0 * Site 0 * Site 0);
    Num (2#1) * (Var 25 + Var 26 / Num (2#1)) / (Site 0 * Site 0 * Site 0);
    Num (2#1) * (Var 25 + Var 26 / Num (2#1)) / (Site 0 * Site 0 * Site 0) - Num (1#1) / (Site 0 * Site 0);
    Num (2#1) * (Var 25 + Var 26 / Num (2#1)) / (Site 0 * Site 0 * Site 0) - Num (1#2) / (Site 0 * Site 0)];
    [Num (2#1) * (Var 25 + Var 26 / Num (2#1)) / (Site 0 * Site 0 * Site 0);
    Num (2#1) * (Var 25 + Var 26 / Num (2#1)) / (Site 0 * Site 0 * Site 0);
    Num (2#1) * (Var 25 + Var 26 / Num (2#1)) / (Site 0 * Site 0 * Site 0);
    Num (2#1) * (Var 25 + Var 26 / Num (2#1)) / (Site 0 * Site 0 * Site 0);
    Num (2#1) * (Var 25 + Var 26 / Num (2#1)) / (Site 0 * Site 0 * Site 0);
    Num (2#1) * (Var 25 + Var 26 / Num (2#1)) / (Site 0 * Site 0 * Site 0) - Num (1#1) / (Site 0 * Site 0);
    Num (2#1) * (Var 25 + Var 26 / Num (2#1)) / (Site 0 * Site 0 * Site 0) - Num (1#2) / (Site 0 * Site 0)];
    [Num (2#1) * (Var 25 + Var 26 / Num (2#1)) / (Site 0 * Site 0 * Site 0);
    Num (2#1) * (Var 25 + Var 26 / Num (2#1)) / (Site 0 * Site 0 * Site 0);
    Num (2#1) * (Var 25 + Var 26 / Num (2#1)) / (Site 0 * Site 0 * Site 0);
    Num (2#1) * (Var 25 + Var 26 / Num (2#1)) / (Site 0 * Site 0 * Site 0);
    Num (2#1) * (Var 25 + Var 26 / Num (2#1)) / (Site 0 * Site 0 * Site 0);
    Num (2#1) * (Var 25 + Var 26 / Num (2#1)) / (Site 0 * Site 0 * Site 0) - Num (1#1) / (Site 0 * Site 0);
    Num (2#1) * (Var 25 + Var 26 / Num (2#1)) / (Site 0 * Site 0 * Site 0) - Num (1#2) / (Site 0 * Site 0)];
    [Num (2#1) * (Var 25 + Var 26 / Num (2#1)) / (Site 0 * Site 0 * Site 0) - Num (1#1) / (Site 0 * Site 0);
    Num (2#1) * (Var 25 + Var 26 / Num (2#1)) / (Site 0 * Site 0 * Site 0) - Num (1#1) / (Site 0 * Site 0);
    Num (2#1) * (Var 25 + Var 26 / Num (2#1)) / (Site 0 * Site 0 * Site 0) - Num (1#1) / (Site 0 * Site 0);
    Num (2#1) * (Var 25 + Var 26 / Num (2#1)) / (Site 0 * Site 0 * Site 0) - Num (1#1) / (Site 0 * Site 0);
    Num (2#1) * (Var 25 + Var 26 / Num (2#1)) / (Site 0 * Site 0 * Site 0) - Num (1#1) / (Site 0 * Site 0);
    Num (2#1) * (Var 25 + Var 26 / Num (2#1)) / (Site 0 * Site 0 * Site 0) - Num (1#1) / (Site 0 * Site 0) - Num (1#1) / (Site 0 * Site 0);
    Num (2#1) * (Var 25 + Var 26 / Num (2#1)) / (Site 0 * Site 0 * Site 0) - Num (1#1) / (Site 0 * Site 0) - Num (1#2) / (Site 0 * Site 0)];
    [Num (2#1) * (Var 25 + Var 26 / Num (2#1)) / (Site 0 * Site 0 * Site 0) - Num (1#2) / (Site 0 * Site 0);
    Num (2#1) * (Var 25 + Var 26 / Num (2#1)) / (Site 0 * Site 0 * Site 0) - Num (1#2) / (Site 0 * Site 0);
    Num (2#1) * (Var 25 + Var 26 / Num (2#1)) / (Site 0 * Site 0 * Site 0) - Num (1#2) / (Site 0 * Site 0);
    Num (2#1) * (Var 25 + Var 26 / Num (2#1)) / (Site 0 * Site 0 * Site 0) - Num (1#2) / (Site 0 * Site 0);
    Num (2#1) * (Var 25 + Var 26 / Num (2#1)) / (Site 0 * Site 0 * Site 0) - Num (1#2) / (Site 0 * Site 0);
    Num (2#1) * (Var 25 + Var 26 / Num (2#1)) / (Site 0 * Site 0 * Site 0) - Num (1#1) / (Site 0 * Site 0) - Num (1#2) / (Site 0 * Site 0);
    Num (2#1) * (Var 25 + Var 26 / Num (2#1)) / (Site 0 * Site 0 * Site 0) - Num (1#2) / (Site 0 * Site 0) - Num (1#2) / (Site 0 * Site 0)]];
    [[Num (2#1) * Var 26 / (Site 0 * Site 0 * Site 0);
    Num (2#1) * Var 26 / (Site 0 * Site 0 * Site 0);
    Num (2#1) * Var 26 / (Site 0 * Site 0 * Site 0);
    Num (2#1) * Var 26 / (Site 0 * Site 0 * Site 0);
    Num (2#1) * Var 26 / (Site 0 * Site 0 * Site 0);
    Num (2#1) * Var 26 / (Site 0 * Site 0 * Site 0);
    Num (2#1) * Var 26 / (Site 0 * Site 0 * Site 0) - Num (1#1) / (Site 0 * Site 0)];
    [Num (2#1) * Var 26 / (Site 0 * Site 0 * Site 0);
    Num (2#1) * Var 26 / (Site 0 * Site 0 * Site 0);
    Num (2#1) * Var 26 / (Site 0 * Site 0 * Site 0);
    Num (2#1) * Var 26 / (Site 0 * Site 0 * Site 0);
    Num (2#1) * Var 26 / (Site 0 * Site 0 * Site 0);
    Num (2#1) * Var 26 / (Site 0 * Site 0 * Site 0);
    Num (2#1) * Var 26 / (Site 0 * Site 0 * Site 0) - Num (1#1) / (Site 0 * Site 0)];
    [Num (2#1) * Var 26 / (Site 0 * Site 0 * Site 0);
    Num (2#1) * Var 26 / (Site 0 * Site 0 * Site 0);
    Num (2#1) * Var 26 / (Site 0 * Site 0 * Site 0);
    Num (2#1) * Var 26 / (Site 0 * Site 0 * Site 0);
    Num (2#1) * Var 26 / (Site 0 * Site 0 * Site 0);
    Num (2#1) * Var 26 / (Site 0 * Site 0 * Site 0);
    Num (2#1) * Var 26 / (Site 0 * Site 0 * Site 0) - Num (1#1) / (Site 0 * Site 0)];
    [Num (2#1) * Var 26 / (Site 0 * Site 0 * Site 0);
    Num (2#1) * Var 26 / (Site 0 * Site 0 * Site 0);
    Num (2#1) * Var 26 / (Site 0 * Site 0 * Site 0);
    Num (2#1) * Var 26 / (Site 0 * Site 0 * Site 0);
    Num (2#1) * Var 26 / (Site 0 * Site 0 * Site 0);
    Num (2#1) * Var 26 / (Site 0 * Site 0 * Site 0);
    Num (2#1) * Var 26 / (Site 0 * Site 0 * Site 0) - Num (1#1) / (Site 0 * Site 0)];
    [Num (2#1) * Var 26 / (Site 0 * Site 0 * Site 0);
    Num (2#1) * Var 26 / (Site 0 * Site 0 * Site 0);
    Num (2#1) * Var 26 / (Site 0 * Site 0 * Site 0);
    Num (2#1) * Var 26 / (Site 0 * Site 0 * Site 0);
    Num (2#1) * Var 26 / (Site 0 * Site 0 * Site 0);
    Num (2#1) * Var 26 / (Site 0 * Site 0 * Site 0);
    Num (2#1) * Var 26 / (Site 0 * Site 0 * Site 0) - Num (1#1) / (Site 0 * Site 0)];
    [Num (2#1) * Var 26 / (Site 0 * Site 0 * Site 0);
    Num (2#1) * Var 26 / (Site 0 * Site 0 * Site 0);
    Num (2#1) * Var 26 / (Site 0 * Site 0 * Site 0);
    Num (2#1) * Var 26 / (Site 0 * Site 0 * Site 0);
    Num (2#1) * Var 26 / (Site 0 * Site 0 * Site 0);
    Num (2#1) * Var 26 / (Site 0 * Site 0 * Site 0);
    Num (2#1) * Var 26 / (Site 0 * Site 0 * Site 0) - Num (1#1) / (Site 0 * Site 0)];
    [Num (2#1) * Var 26 / (Site 0 * Site 0 * Site 0) - Num (1#1) / (Site 0 * Site 0);
    Num (2#1) * Var 26 / (Site 0 * Site 0 * Site 0) - Num (1#1) / (Site 0 * Site 0);
    Num (2#1) * Var 26 / (Site 0 * Site 0 * Site 0) - Num (1#1) / (Site 0 * Site 0);
    Num (2#1) * Var 26 / (Site 0 * Site 0 * Site 0) - Num (1#1) / (Site 0 * Site 0);
    Num (2#1) * Var 26 / (Site 0 * Site 0 * Site 0) - Num (1#1) / (Site 0 * Site 0);
    Num (2#1) * Var 26 / (Site 0 * Site 0 * Site 0) - Num (1#1) / (Site 0 * Site 0);
    Num (2#1) * Var 26 / (Site 0 * Site 0 * Site 0) - Num (1#1) / (Site 0 * Site 0) - Num (1#1) / (Site 0 * Site 0)]];
    [[Num (2#1) * Var 21 / (Site 0 * Site 0 * Site 0);
    Num (2#1) * Var 21 / (Site 0 * Site 0 * Site 0) - Num (1#1) / (Site 0 * Site 0);
    Num (2#1) * Var 21 / (Site 0 * Site 0 * Site 0);
    Num (2#1) * Var 21 / (Site 0 * Site 0 * Site 0);
    Num (2#1) * Var 21 / (Site 0 * Site 0 * Site 0);
    Num (2#1) * Var 21 / (Site 0 * Site 0 * Site 0);
    Num (2#1) * Var 21 / (Site 0 * Site 0 * Site 0)];
    [Num (2#1) * Var 21 / (Site 0 * Site 0 * Site 0) - Num (1#1) / (Site 0 * Site 0);
    Num (2#1) * Var 21 / (Site 0 * Site 0 * Site 0) - Num (1#1) / (Site 0 * Site 0) - Num (1#1) / (Site 0 * Site 0);
    Num (2#1) * Var 21 / (Site 0 * Site 0 * Site 0) - Num (1#1) / (Site 0 * Site 0);
    Num (2#1) * Var 21 / (Site 0 * Site 0 * Site 0) - Num (1#1) / (Site 0 * Site 0);
    Num (2#1) * Var 21 / (Site 0 * Site 0 * Site 0) - Num (1#1) / (Site 0 * Site 0);
    Num (2#1) * Var 21 / (Site 0 * Site 0 * Site 0) - Num (1#1) / (Site 0 * Site 0);
    Num (2#1) * Var 21 / (Site 0 * Site 0 * Site 0) - Num (1#1) / (Site 0 * Site 0)];
    [Num (2#1) * Var 21 / (Site 0 * Site 0 * Site 0);
    Num (2#1) * Var 21 / (Site 0 * Site 0 * Site 0) - Num (1#1) / (Site 0 * Site 0);
    Num (2#1) * Var 21 / (Site 0 * Site 0 * Site 0);
    Num (2#1) * Var 21 / (Site 0 * Site 0 * Site 0);
    Num (2#1) * Var 21 / (Site 0 * Site 0 * Site 0);
    Num (2#1) * Var 21 / (Site 0 * Site 0 * Site 0);
    Num (2#1) * Var 21 / (Site 0 * Site 0 * Site 0)];
    [Num (2#1) * Var 21 / (Site 0 * Site 0 * Site 0);
    Num (2#1) * Var 21 / (Site 0 * Site 0 * Site 0) - Num (1#1) / (Site 0 * Site 0);
    Num (2#1) * Var 21 / (Site 0 * Site 0 * Site 0);
    Num (2#1) * Var 21 / (Site 0 * Site 0 * Site 0);
    Num (2#1) * Var 21 / (Site 0 * Site 0 * Site 0);
    Num (2#1) * Var 21 / (Site 0 * Site 0 * Site 0);
    Num (2#1) * Var 21 / (Site 0 * Site 0 * Site 0)];
    [Num (2#1) * Var 21 / (Site 0 * Site 0 * Site 0);
    Num (2#1) * Var 21 / (Site 0 * Site 0 * Site 0) - Num (1#1) / (Site 0 * Site 0);
    Num (2#1) * Var 21 / (Site 0 * Site 0 * Site 0);
    Num (2#1) * Var 21 / (Site 0 * Site 0 * Site 0);
    Num (2#1) * Var 21 / (Site 0 * Site 0 * Site 0);
    Num (2#1) * Var 21 / (Site 0 * Site 0 * Site 0);
    Num (2#1) * Var 21 / (Site 0 * Site 0 * Site 0)];
    [Num (2#1) * Var 21 / (Site 0 * Site 0 * Site 0);
    Num (2#1) * Var 21 / (Site 0 * Site 0 * Site 0) - Num (1#1) / (Site 0 * Site 0);
    Num (2#1) * Var 21 / (Site 0 * Site 0 * Site 0);
    Num (2#1) * Var 21 / (Site 0 * Site 0 * Site 0);
    Num (2#1) * Var 21 / (Site 0 * Site 0 * Site 0);
    Num (2#1) * Var 21 / (Site 0 * Site 0 * Site 0);
    Num (2#1) * Var 21 / (Site 0 * Site 0 * Site 0)];
    [Num (2#1) * Var 21 / (Site 0 * Site 0 * Site 0);
    Num (2#1) * Var 21 / (Site 0 * Site 0 * Site 0) - Num (1#1) / (Site 0 * Site 0);
    Num (2#1) * Var 21 / (Site 0 * Site 0 * Site 0);
    Num (2#1) * Var 21 / (Site 0 * Site 0 * Site 0);
    Num (2#1) * Var 21 / (Site 0 * Site 0 * Site 0);
    Num (2#1) * Var 21 / (Site 0 * Site 0 * Site 0);
    Num (2#1) * Var 21 / (Site 0 * Site 0 * Site 0)]]].
(** sources/clinopyroxene.c 4261-4540: conCpx, inpMask SECOND, output d3m[i][j][k][l] *)
Definition Cpx_con_d3m :=
  [[[[Num (-6#1) * Var 22 / (Site 0 * Site 0 * Site 0 * Site 0);
    Num (-6#1) * Var 22 / (Site 0 * Site 0 * Site 0 * Site 0);
    Num (-6#1) * Var 22 / (Site 0 * Site 0 * Site 0 * Site 0) + Num (2#1) / (Site 0 * Site 0 * Site 0);
    Num (-6#1) * Var 22 / (Site 0 * Site 0 * Site 0 * Site 0);
    Num (-6#1) * Var 22 / (Site 0 * Site 0 * Site 0 * Site 0);
    Num (-6#1) * Var 22 / (Site 0 * Site 0 * Site 0 * Site 0);
    Num (-6#1) * Var 22 / (Site 0 * Site 0 * Site 0 * Site 0)];
    [Num (-6#1) * Var 22 / (Site 0 * Site 0 * Site 0 * Site 0);
    Num (-6#1) * Var 22 / (Site 0 * Site 0 * Site 0 * Site 0);
    Num (-6#1) * Var 22 / (Site 0 * Site 0 * Site 0 * Site 0) + Num (2#1) / (Site 0 * Site 0 * Site 0);
    Num (-6#1) * Var 22 / (Site 0 * Site 0 * Site 0 * Site 0);
    Num (-6#1) * Var 22 / (Site 0 * Site 0 * Site 0 * Site 0);
    Num (-6#1) * Var 22 / (Site 0 * Site 0 * Site 0 * Site 0);
    Num (-6#1) * Var 22 / (Site 0 * Site 0 * Site 0 * Site 0)];
    [Num (-6#1) * Var 22 / (Site 0 * Site 0 * Site 0 * Site 0) + Num (2#1) / (Site 0 * Site 0 * Site 0);
    Num (-6#1) * Var 22 / (Site 0 * Site 0 * Site 0 * Site 0) + Num (2#1) / (Site 0 * Site 0 * Site 0);
    Num (-6#1) * Var 22 / (Site 0 * Site 0 * Site 0 * Site 0) + Num (2#1) / (Site 0 * Site 0 * Site 0) + Num (2#1) / (Site 0 * Site 0 * Site 0);
    Num (-6#1) * Var 22 / (Site 0 * Site 0 * Site 0 * Site 0) + Num (2#1) / (Site 0 * Site 0 * Site 0);
    Num (-6#1) * Var 22 / (Site 0 * Site 0 * Site 0 * Site 0) + Num (2#1) / (Site 0 * Site 0 * Site 0);
    Num (-6#1) * Var 22 / (Site 0 * Site 0 * Site 0 * Site 0) + Num (2#1) / (Site 0 * Site 0 * Site 0);
    Num (-6#1) * Var 22 / (Site 0 * Site 0 * Site 0 * Site 0) + Num (2#1) / (Site 0 * Site 0 * Site 0)];
    [Num (-6#1) * Var 22 / (Site 0 * Site 0 * Site 0 * Site 0);
    Num (-6#1) * Var 22 / (Site 0 * Site 0 * Site 0 * Site 0);
    Num (-6#1) * Var 22 / (Site 0 * Site 0 * Site 0 * Site 0) + Num (2#1) / (Site 0 * Site 0 * Site 0);
    Num (-6#1) * Var 22 / (Site 0 * Site 0 * Site 0 * Site 0);
    Num (-6#1) * Var 22 / (Site 0 * Site 0 * Site 0 * Site 0);
    Num (-6#1) * Var 22 / (Site 0 * Site 0 * Site 0 * Site 0);
    Num (-6#1) * Var 22 / (Site 0 * Site 0 * Site 0 * Site 0)];
    [Num (-6#1) * Var 22 / (Site 0 * Site 0 * Site 0 * Site 0);
    Num (-6#1) * Var 22 / (Site 0 * Site 0 * Site 0 * Site 0);
    Num (-6#1) * Var 22 / (Site 0 * Site 0 * Site 0 * Site 0) + Num (2#1) / (Site 0 * Site 0 * Site 0);
    Num (-6#1) * Var 22 / (Site 0 * Site 0 * Site 0 * Site 0);
    Num (-6#1) * Var 22 / (Site 0 * Site 0 * Site 0 * Site 0);
    Num (-6#1) * Var 22 / (Site 0 * Site 0 * Site 0 * Site 0);
    Num (-6#1) * Var 22 / (Site 0 * Site 0 * Site 0 * Site 0)];
    [Num (-6#1) * Var 22 / (Site 0 * Site 0 * Site 0 * Site 0);
    Num (-6#1) * Var 22 / (Site 0 * Site 0 * Site 0 * Site 0);
    Num (-6#1) * Var 22 / (Site 0 * Site 0 * Site 0 * Site 0) + Num (2#1) / (Site 0 * Site 0 * Site 0);
    Num (-6#1) * Var 22 / (Site 0 * Site 0 * Site 0 * Site 0);
    Num (-6#1) * Var 22 / (Site 0 * Site 0 * Site 0 * Site 0);
    Num (-6#1) * Var 22 / (Site 0 * Site 0 * Site 0 * Site 0);
    Num (-6#1) * Var 22 / (Site 0 * Site 0 * Site 0 * Site 0)];
    [Num (-6#1) * Var 22 / (Site 0 * Site 0 * Site 0 * Site 0);
    Num (-6#1) * Var 22 / (Site 0 * Site 0 * Site 0 * Site 0);
    Num (-6#1) * Var 22 / (Site 0 * Site 0 * Site 0 * Site 0) + Num (2#1) / (Site 0 * Site 0 * Site 0);
    Num (-6#1) * Var 22 / (Site 0 * Site 0 * Site 0 * Site 0);
    Num (-6#1) * Var 22 / (Site 0 * Site 0 * Site 0 * Site 0);
    Num (-6#1) * Var 22 / (Site 0 * Site 0 * Site 0 * Site 0);
    Num (-6#1) * Var 22 / (Site 0 * Site 0 * Site 0 * Site 0)]];
    [[Num (-6#1) * Var 22 / (Site 0 * Site 0 * Site 0 * Site 0);
    Num (-6#1) * Var 22 / (Site 0 * Site 0 * Site 0 * Site 0);
    Num (-6#1) * Var 22 / (Site 0 * Site 0 * Site 0 * Site 0) + Num (2#1) / (Site 0 * Site 0 * Site 0);
    Num (-6#1) * Var 22 / (Site 0 * Site 0 * Site 0 * Site 0);
    Num (-6#1) * Var 22 / (Site 0 * Site 0 * Site 0 * Site 0);
    Num (-6#1) * Var 22 / (Site 0 * Site 0 * Site 0 * Site 0);
    Num (-6#1) * Var 22 / (Site 0 * Site 0 * Site 0 * Site 0)];
    [Num (-6#1) * Var 22 / (Site 0 * Site 0 * Site 0 * Site 0);
    Num (-6#1) * Var 22 / (Site 0 * Site 0 * Site 0 * Site 0);
    Num (-6#1) * Var 22 / (Site 0 * Site 0 * Site 0 * Site 0) + Num (2#1) / (Site 0 * Site 0 * Site 0);
    Num (-6#1) * Var 22 / (Site 0 * Site 0 * Site 0 * Site 0);
    Num (-6#1) * Var 22 / (Site 0 * Site 0 * Site 0 * Site 0);
    Num (-6#1) * Var 22 / (Site 0 * Site 0 * Site 0 * Site 0);
    Num (-6#1) * Var 22 / (Site 0 * Site 0 * Site 0 * Site 0)];
    [Num (-6#1) * Var 22 / (Site 0 * Site 0 * Site 0 * Site 0) + Num (2#1) / (Site 0 * Site 0 * Site 0);
    Num (-6#1) * Var 22 / (Site 0 * Site 0 * Site 0 * Site 0) + Num (2#1) / (Site 0 * Site 0 * Site 0);
    Num (-6#1) * Var 22 / (Site 0 * Site 0 * Site 0 * Site 0) + Num (2#1) / (Site 0 * Site 0 * Site 0) + Num (2#1) / (Site 0 * Site 0 * Site 0);
    Num (-6#1) * Var 22 / (Site 0 * Site 0 * Site 0 * Site 0) + Num (2#1) / (Site 0 * Site 0 * Site 0);
    Num (-6#1) * Var 22 / (Site 0 * Site 0 * Site 0 * Site 0) + Num (2#1) / (Site 0 * Site 0 * Site 0);
    Num (-6#1) * Var 22 / (Site 0 * Site 0 * Site 0 * Site 0) + Num (2#1) / (Site 0 * Site 0 * Site 0);
    Num (-6#1) * Var 22 / (Site 0 * Site 0 * Site 0 * Site 0) + Num (2#1) / (Site 0 * Site 0 * Site 0)];
    [Num (-6#1) * Var 22 / (Site 0 * Site 0 * Site 0 * Site 0);
    Num (-6#1) * Var 22 / (Site 0 * Site 0 * Site 0 * Site 0);
    Num (-6#1) * Var 22 / (Site 0 * Site 0 * Site 0 * Site 0) + Num (2#1) / (Site 0 * Site 0 * Site 0);
    Num (-6#1) * Var 22 / (Site 0 * Site 0 * Site 0 * Site 0);
    Num (-6#1) * Var 22 / (Site 0 * Site 0 * Site 0 * Site 0);
    Num (-6#1) * Var 22 / (Site 0 * Site 0 * Site 0 * Site 0);
    Num (-6#1) * Var 22 / (Site 0 * Site 0 * Site 0 * Site 0)];
    [Num (-6#1) * Var 22 / (Site 0 * Site 0 * Site 0 * Site 0);
    Num (-6#1) * Var 22 / (Site 0 * Site 0 * Site 0 * Site 0);
    Num (-6#1) * Var 22 / (Site 0 * Site 0 * Site 0 * Site 0) + Num (2#1) / (Site 0 * Site 0 * Site 0);
    Num (-6#1) * Var 22 / (Site 0 * Site 0 * Site 0 * Site 0);
    Num (-6#1) * Var 22 / (Site 0 * Site 0 * Site 0 * Site 0);
    Num (-6#1) * Var 22 / (Site 0 * Site 0 * Site 0 * Site 0);
    Num (-6#1) * Var 22 / (Site 0 * Site 0 * Site 0 * Site 0)];
    [Num (-6#1) * Var 22 / (Site 0 * Site 0 * Site 0 * Site 0);
    Num (-6#1) * Var 22 / (Site 0 * Site 0 * Site 0 * Site 0);
    Num (-6#1) * Var 22 / (Site 0 * Site 0 * Site 0 * Site 0) + Num (2#1) / (Site 0 * Site 0 * Site 0);
    Num (-6#1) * Var 22 / (Site 0 * Site 0 * Site 0 * Site 0);
    Num (-6#1) * Var 22 / (Site 0 * Site 0 * Site 0 * Site 0);
    Num (-6#1) * Var 22 / (Site 0 * Site 0 * Site 0 * Site 0);
    Num (-6#1) * Var 22 / (Site 0 * Site 0 * Site 0 * Site 0)];
    [Num (-6#1) * Var 22 / (Site 0 * Site 0 * Site 0 * Site 0);
    Num (-6#1) * Var 22 / (Site 0 * Site 0 * Site 0 * Site 0);
    Num (-6#1) * Var 22 / (Site 0 * Site 0 * Site 0 * Site 0) + Num (2#1) / (Site 0 * Site 0 * Site 0);
    Num (-6#1) * Var 22 / (Site 0 * Site 0 * Site 0 * Site 0);
    Num (-6#1) * Var 22 / (Site 0 * Site 0 * Site 0 * Site 0);
    Num (-6#1) * Var 22 / (Site 0 * Site 0 * Site 0 * Site 0);
    Num (-6#1) * Var 22 / (Site 0 * Site 0 * Site 0 * Site 0)]];
    [[Num (-6#1) * Var 22 / (Site 0 * Site 0 * Site 0 * Site 0) + Num (2#1) / (Site 0 * Site 0 * Site 0);
    Num (-6#1) * Var 22 / (Site 0 * Site 0 * Site 0 * Site 0) + Num (2#1) / (Site 0 * Site 0 * Site 0);
    Num (-6#1) * Var 22 / (Site 0 * Site 0 * Site 0 * Site 0) + Num (2#1) / (Site 0 * Site 0 * Site 0) + Num (2#1) / (Site 0 * Site 0 * Site 0);
    Num (-6#1) * Var 22 / (Site 0 * Site 0 * Site 0 * Site 0) + Num (2#1) / (Site 0 * Site 0 * Site 0);
    Num (-6#1) * Var 22 / (Site 0 * Site 0 * Site 0 * Site 0) + Num (2#1) / (Site 0 * Site 0 * Site 0);
    Num (-6#1) * Var 22 / (Site 0 * Site 0 * Site 0 * Site 0) + Num (2#1) / (Site 0 * Site 0 * Site 0);
    Num (-6#1) * Var 22 / (Site 0 * Site 0 * Site 0 * Site 0) + Num (2#1) / (Site 0 * Site 0 * Site 0)];
    [Num (-6#1) * Var 22 / (Site 0 * Site 0 * Site 0 * Site 0) + Num (2#1) / (Site 0 * Site 0 * Site 0);
    Num (-6#1) * Var 22 / (Site 0 * Site 0 * Site 0 * Site 0) + Num (2#1) / (Site 0 * Site 0 * Site 0);
    Num (-6#1) * Var 22 / (Site 0 * Site 0 * Site 0 * Site 0) + Num (2#1) / (Site 0 * Site 0 * Site 0) + Num (2#1) / (Site 0 * Site 0 * Site 0);
    Num (-6#1) * Var 22 / (Site 0 * Site 0 * Site 0 * Site 0) + Num (2#1) / (Site 0 * Site 0 * Site 0);
    Num (-6#1) * Var 22 / (Site 0 * Site 0 * Site 0 * Site 0) + Num (2#1) / (Site 0 * Site 0 * Site 0);
    Num (-6#1) * Var 22 / (Site 0 * Site 0 * Site 0 * Site 0) + Num (2#1) / (Site 0 * Site 0 * Site 0);
    Num (-6#1) * Var 22 / (Site 0 * Site 0 * Site 0 * Site 0) + Num (2#1) / (Site 0 * Site 0 * Site 0)];
    [Num (-6#1) * Var 22 / (Site 0 * Site 0 * Site 0 * Site 0) + Num (2#1) / (Site 0 * Site 0 * Site 0) + Num (2#1) / (Site 0 * Site 0 * Site 0);
    Num (-6#1) * Var 22 / (Site 0 * Site 0 * Site 0 * Site 0) + Num (2#1) / (Site 0 * Site 0 * Site 0) + Num (2#1) / (Site 0 * Site 0 * Site 0);
    Num (-6#1) * Var 22 / (Site 0 * Site 0 * Site 0 * Site 0) + Num (2#1) / (Site 0 * Site 0 * Site 0) + Num (2#1) / (Site 0 * Site 0 * Site 0) + Num (2#1) / (Site 0 * Site 0 * Site 0);
    Num (-6#1) * Var 22 / (Site 0 * Site 0 * Site 0 * Site 0) + Num (2#1) / (Site 0 * Site 0 * Site 0) + Num (2#1) / (Site 0 * Site 0 * Site 0);
    Num (-6#1) * Var 22 / (Site 0 * Site 0 * Site 0 * Site 0) + Num (2#1) / (Site 0 * Site 0 * Site 0) + Num (2#1) / (Site 0 * Site 0 * Site 0);
    Num (-6#1) * Var 22 / (Site 0 * Site 0 * Site 0 * Site 0) + Num (2#1) / (Site 0 * Site 0 * Site 0) + Num (2#1) / (Site 0 * Site 0 * Site 0);
    Num (-6#1) * Var 22 / (Site 0 * Site 0 * Site 0 * Site 0) + Num (2#1) / (Site 0 * Site 0 * Site 0) + Num (2#1) / (Site 0 * Site 0 * Site 0)];
    [Num (-6#1) * Var 22 / (Site 0 * Site 0 * Site 0 * Site 0) + Num (2#1) / (Site 0 * Site 0 * Site 0);
    Num (-6#1) * Var 22 / (Site 0 * Site 0 * Site 0 * Site 0) + Num (2#1) / (Site 0 * Site 0 * Site 0);
    Num (-6#1) * Var 22 / (Site 0 * Site 0 * Site 0 * Site 0) + Num (2#1) / (Site 0 * Site 0 * Site 0) + Num (2#1) / (Site 0 * Site 0 * Site 0);
    Num (-6#1) * Var 22 / (Site 0 * Site 0 * Site 0 * Site 0) + Num (2#1) / (Site 0 * Site 0 * Site 0);
    Num (-6#1) * Var 22 / (Site 0 * Site 0 * Site 0 * Site 0) + Num (2#1) / (Site 0 * Site 0 * Site 0);
    Num (-6#1) * Var 22 / (Site 0 * Site 0 * Site 0 * Site 0) + Num (2#1) / (Site 0 * Site 0 * Site 0);
    Num (-6#1) * Var 22 / (Site 0 * Site 0 * Site 0 * Site 0) + Num (2#1) / (Site 0 * Site 0 * Site 0)];
    [Num (-6#1) * Var 22 / (Site 0 * Site 0 * Site 0 * Site 0) + Num (2#1) / (Site 0 * Site 0 * Site 0);
    Num (-6#1) * Var 22 / (Site 0 * Site 0 * Site 0 * Site 0) + Num (2#1) / (Site 0 * Site 0 * Site 0);
    Num (-6#1) * Var 22 / (Site 0 * Site 0 * Site 0 * Site 0) + Num (2#1) / (Site 0 * Site 0 * Site 0) + Num (2#1) / (Site 0 * Site 0 * Site 0);
    Num (-6#1) * Var 22 / (Site 0 * Site 0 * Site 0 * Site 0) + Num (2#1) / (Site 0 * Site 0 * Site 0);
    Num (-6#1) * Var 22 / (Site 0 * Site 0 * Site 0 * Site 0) + Num (2#1) / (Site 0 * Site 0 * Site 0);
    Num (-6#1) * Var 22 / (Site 0 * Site 0 * Site 0 * Site 0) + Num (2#1) / (Site 0 * Site 0 * Site 0);
    Num (-6#1) * Var 22 / (Site 0 * Site 0 * Site 0 * Site 0) + Num (2#1) / (Site 0 * Site 0 * Site 0)];
    [Num (-6#1) * Var 22 / (Site 0 * Site 0 * Site 0 * Site 0) + Num (2#1) / (Site 0 * Site 0 * Site 0);
    Num (-6#1) * Var 22 / (Site 0 * Site 0 * Site 0 * Site 0) + Num (2#1) / (Site 0 * Site 0 * Site 0);
    Num (-6#1) * Var 22 / (Site 0 * Site 0 * Site 0 * Site 0) + Num (2#1) / (Site 0 * Site 0 * Site 0) + Num (2#1) / (Site 0 * Site 0 * Site 0);
    Num (-6#1) * Var 22 / (Site 0 * Site 0 * Site 0 * Site 0) + Num (2#1) / (Site 0 * Site 0 * Site 0);
    Num (-6#1) * Var 22 / (Site 0 * Site 0 * Site 0 * Site 0) + Num (2#1) / (Site 0 * Site 0 * Site 0);
    Num (-6#1) * Var 22 / (Site 0 * Site 0 * Site 0 * Site 0) + Num (2#1) / (Site 0 * Site 0 * Site 0);
    Num (-6#1) * Var 22 / (Site 0 * Site 0 * Site 0 * Site 0) + Num (2#1) / (Site 0 * Site 0 * Site 0)];
    [Num (-6#1) * Var 22 / (Site 0 * Site 0 * Site 0 * Site 0) + Num (2#1) / (Site 0 * Site 0 * Site 0);
    Num (-6#1) * Var 22 / (Site 0 * Site 0 * Site 0 * Site 0) + Num (2#1) / (Site 0 * Site 0 * Site 0);
    Num (-6#1) * Var 22 / (Site 0 * Site 0 * Site 0 * Site 0) + Num (2#1) / (Site 0 * Site 0 * Site 0) + Num (2#1) / (Site 0 * Site 0 * Site 0);
    Num (-6#1) * Var 22 / (Site 0 * Site 0 * Site 0 * Site 0) + Num (2#1) / (Site 0 * Site 0 * Site 0);
    Num (-6#1) * Var 22 / (Site 0 * Site 0 * Site 0 * Site 0) + Num (2#1) / (Site 0 * Site 0 * Site 0);
    Num (-6#1) * Var 22 / (Site 0 * Site 0 * Site 0 * Site 0) + Num (2#1) / (Site 0 * Site 0 * Site 0);
    Num (-6#1) * Var 22 / (Site 0 * Site 0 * Site 0 * Site 0) + Num (2#1) / (Site 0 * Site 0 * Site 0)]];
    [[Num (-6#1) * Var 22 / (Site 0 * Site 0 * Site 0 * Site 0);
    Num (-6#1) * Var 22 / (Site 0 * Site 0 * Site 0 * Site 0);
    Num (-6#1) * Var 22 / (Site 0 * Site 0 * Site 0 * Site 0) + Num (2#1) / (Site 0 * Site 0 * Site 0);
    Num (-6#1) * Var 22 / (Site 0 * Site 0 * Site 0 * Site 0);
    Num (-6#1) * Var 22 / (Site 0 * Site 0 * Site 0 * Site 0);
    Num (-6#1) * Var 22 / (Site 0 * Site 0 * Site 0 * Site 0);
    Num (-6#1) * Var 22 / (Site 0 * Site 0 * Site 0 * Site 0)];
    [Num (-6#1) * Var 22 / (Site 0 * Site 0 * Site 0 * Site 0);
    Num (-6#1) * Var 22 / (Site 0 * Site 0 * Site 0 * Site 0);
    Num (-6#1) * Var 22 / (Site 0 * Site 0 * Site 0 * Site 0) + Num (2#1) / (Site 0 * Site 0 * Site 0);
    Num (-6#1) * Var 22 / (Site 0 * Site 0 * Site 0 * Site 0);
    Num (-6#1) * Var 22 / (Site 0 * Site 0 * Site 0 * Site 0);
    Num (-6#1) * Var 22 / (Site 0 * Site 0 * Site 0 * Site 0);
    Num (-6#1) * Var 22 / (Site 0 * Site 0 * Site 0 * Site 0)];
    [Num (-6#1) * Var 22 / (Site 0 * Site 0 * Site 0 * Site 0) + Num (2#1) / (Site 0 * Site 0 * Site 0);
    Num (-6#1) * Var 22 / (Site 0 * Site 0 * Site 0 * Site 0) + Num (2#1) / (Site 0 * Site 0 * Site 0);
    Num (-6#1) * Var 22 / (Site 0 * Site 0 * Site 0 * Site 0) + Num (2#1) / (Site 0 * Site 0 * Site 0) + Num (2#1) / (Site 0 * Site 0 * Site 0);
    Num (-6#1) * Var 22 / (Site 0 * Site 0 * Site 0 * Site 0) + Num (2#1) / (Site 0 * Site 0 * Site 0);
    Num (-6#1) * Var 22 / (Site 0 * Site 0 * Site 0 * Site 0) + Num (2#1) / (Site 0 * Site 0 * Site 0);
    Num (-6#1) * Var 22 / (Site 0 * Site 0 * Site 0 * Site 0) + Num (2#1) / (Site 0 * Site 0 * Site 0);
    Num (-6#1) * Var 22 / (Site 0 * Site 0 * Site 0 * Site 0) + Num (2#1) / (Site 0 * Site 0 * Site 0)];
    [Num (-6#1) * Var 22 / (Site 0 * Site 0 * Site 0 * Site 0);
    Num (-6#1) * Var 22 / (Site 0 * Site 0 * Site 0 * Site 0);
    Num (-6#1) * Var 22 / (Site 0 * Site 0 * Site 0 * Site 0) + Num (2#1) / (Site 0 * Site 0 * Site 0);
    Num (-6#1) * Var 22 / (Site 0 * Site 0 * Site 0 * Site 0);
    Num (-6#1) * Var 22 / (Site 0 * Site 0 * Site 0 * Site 0);
    Num (-6#1) * Var 22 / (Site 0 * Site 0 * Site 0 * Site 0);
    Num (-6#1) * Var 22 / (Site 0 * Site 0 * Site 0 * Site 0)];
    [Num (-6#1) * Var 22 / (Site 0 * Site 0 * Site 0 * Site 0);
    Num (-6#1) * Var 22 / (Site 0 * Site 0 * Site 0 * Site 0);
    Num (-6#1) * Var 22 / (Site 0 * Site 0 * Site 0 * Site 0) + Num (2#1) / (Site 0 * Site 0 * Site 0);
    Num (-6#1) * Var 22 / (Site 0 * Site 0 * Site 0 * Site 0);
    Num (-6#1) * Var 22 / (Site 0 * Site 0 * Site 0 * Site 0);
    Num (-6#1) * Var 22 / (Site 0 * Site 0 * Site 0 * Site 0);
    Num (-6#1) * Var 22 / (Site 0 * Site 0 * Site 0 * Site 0)];
    [Num (-6#1) * Var 22 / (Site 0 * Site 0 * Site 0 * Site 0);
    Num (-6#1) * Var 22 / (Site 0 * Site 0 * Site 0 * Site 0);
    Num (-6#1) * Var 22 / (Site 0 * Site 0 * Site 0 * Site 0) + Num (2#1) / (Site 0 * Site 0 * Site 0);
    Num (-6#1) * Var 22 / (Site 0 * Site 0 * Site 0 * Site 0);
    Num (-6#1) * Var 22 / (Site 0 * Site 0 * Site 0 * Site 0);
    Num (-6#1) * Var 22 / (Site 0 * Site 0 * Site 0 * Site 0);
    Num (-6#1) * Var 22 / (Site 0 * Site 0 * Site 0 * Site 0)];
    [Num (-6#1) * Var 22 / (Site 0 * Site 0 * Site 0 * Site 0);
    Num (-6#1) * Var 22 / (Site 0 * Site 0 * Site 0 * Site 0);
    Num (-6#1) * Var 22 / (Site 0 * Site 0 * Site 0 * Site 0) + Num (2#1) / (Site 0 * Site 0 * Site 0);
    Num (-6#1) * Var 22 / (Site 0 * Site 0 * Site 0 * Site 0);
    Num (-6#1) * Var 22 / (Site 0 * Site 0 * Site 0 * Site 0);
    Num (-6#1) * Var 22 / (Site 0 * Site 0 * Site 0 * Site 0);
    Num (-6#1) * Var 22 / (Site 0 * Site 0 * Site 0 * Site 0)]];
    [[Num (-6#1) * Var 22 / (Site 0 * Site 0 * Site 0 * Site 0);
    Num (-6#1) * Var 22 / (Site 0 * Site 0 * Site 0 * Site 0);
    Num (-6#1) * Var 22 / (Site 0 * Site 0 * Site 0 * Site 0) + Num (2#1) / (Site 0 * Site 0 * Site 0);
    Num (-6#1) * Var 22 / (Site 0 * Site 0 * Site 0 * Site 0);
    Num (-6#1) * Var 22 / (Site 0 * Site 0 * Site 0 * Site 0);
    Num (-6#1) * Var 22 / (Site 0 * Site 0 * Site 0 * Site 0);
    Num (-6#1) * Var 22 / (Site 0 * Site 0 * Site 0 * Site 0)];
    [Num (-6#1) * Var 22 / (Site 0 * Site 0 * Site 0 * Site 0);
    Num (-6#1) * Var 22 / (Site 0 * Site 0 * Site 0 * Site 0);
    Num (-6#1) * Var 22 / (Site 0 * Site 0 * Site 0 * Site 0) + Num (2#1) / (Site 0 * Site 0 * Site 0);
    Num (-6#1) * Var 22 / (Site 0 * Site 0 * Site 0 * Site 0);
    Num (-6#1) * Var 22 / (Site 0 * Site 0 * Site 0 * Site 0);
    Num (-6#1) * Var 22 / (Site 0 * Site 0 * Site 0 * Site 0);
    Num (-6#1) * Var 22 / (Site 0 * Site 0 * Site 0 * Site 0)];
    [Num (-6#1) * Var 22 / (Site 0 * Site 0 * Site 0 * Site 0) + Num (2#1) / (Site 0 * Site 0 * Site 0);
    Num (-6#1) * Var 22 / (Site 0 * Site 0 * Site 0 * Site 0) + Num (2#1) / (Site 0 * Site 0 * Site 0);
    Num (-6#1) * Var 22 / (Site 0 * Site 0 * Site 0 * Site 0) + Num (2#1) / (Site 0 * Site 0 * Site 0) + Num (2#1) / (Site 0 * Site 0 * Site 0);
    Num (-6#1) * Var 22 / (Site 0 * Site 0 * Site 0 * Site 0) + Num (2#1) / (Site 0 * Site 0 * Site 0);
    Num (-6#1) * Var 22 / (Site 0 * Site 0 * Site 0 * Site 0) + Num (2#1) / (Site 0 * Site 0 * Site 0);
    Num (-6#1) * Var 22 / (Site 0 * Site 0 * Site 0 * Site 0) + Num (2#1) / (Site 0 * Site 0 * Site 0);
    Num (-6#1) * Var 22 / (Site 0 * Site 0 * Site 0 * Site 0) + Num (2#1) / (Site 0 * Site 0 * Site 0)];
    [Num (-6#1) * Var 22 / (Site 0 * Site 0 * Site 0 * Site 0);
    Num (-6#1) * Var 22 / (Site 0 * Site 0 * Site 0 * Site 0);
    Num (-6#1) * Var 22 / (Site 0 * Site 0 * Site 0 * Site 0) + Num (2#1) / (Site 0 * Site 0 * Site 0);
    Num (-6#1) * Var 22 / (Site 0 * Site 0 * Site 0 * Site 0);
    Num (-6#1) * Var 22 / (Site 0 * Site 0 * Site 0 * Site 0);
    Num (-6#1) * Var 22 / (Site 0 * Site 0 * Site 0 * Site 0);
    Num (-6#1) * Var 22 / (Site 0 * Site 0 * Site 0 * Site 0)];
    [Num (-6#1) * Var 22 / (Site 0 * Site 0 * Site 0 * Site 0);
    Num (-6#1) * Var 22 / (Site 0 * Site 0 * Site 0 * Site 0);
    Num (-6#1) * Var 22 / (Site 0 * Site 0 * Site 0 * Site 0) + Num (2#1) / (Site 0 * Site 0 * Site 0);
    Num (-6#1) * Var 22 / (Site 0 * Site 0 * Site 0 * Site 0);
    Num (-6#1) * Var 22 / (Site 0 * Site 0 * Site 0 * Site 0);
    Num (-6#1) * Var 22 / (Site 0 * Site 0 * Site 0 * Site 0);
    Num (-6#1) * Var 22 / (Site 0 * Site 0 * Site 0 * Site 0)];
    [Num (-6#1) * Var 22 / (Site 0 * Site 0 * Site 0 * Site 0);
    Num (-6#1) * Var 22 / (Site 0 * Site 0 * Site 0 * Site 0);
    Num (-6#1) * Var 22 / (Site 0 * Site 0 * Site 0 * Site 0) + Num (2#1) / (Site 0 * Site 0 * Site 0);
    Num (-6#1) * Var 22 / (Site 0 * Site 0 * Site 0 * Site 0);
    Num (-6#1) * Var 22 / (Site 0 * Site 0 * Site 0 * Site 0);
    Num (-6#1) * Var 22 / (Site 0 * Site 0 * Site 0 * Site 0);
    Num (-6#1) * Var 22 / (Site 0 * Site 0 * Site 0 * Site 0)];
    [Num (-6#1) * Var 22 / (Site 0 * Site 0 * Site 0 * Site 0);
    Num (-6#1) * Var 22 / (Site 0 * Site 0 * Site 0 * Site 0);
    Num (-6#1) * Var 22 / (Site 0 * Site 0 * Site 0 * Site 0) + Num (2#1) / (Site 0 * Site 0 * Site 0);
    Num (-6#1) * Var 22 / (Site 0 * Site 0 * Site 0 * Site 0);
    Num (-6#1) * Var 22 / (Site 0 * Site 0 * Site 0 * Site 0);
    Num (-6#1) * Var 22 / (Site 0 * Site 0 * Site 0 * Site 0);
    Num (-6#1) * Var 22 / (Site 0 * Site 0 * Site 0 * Site 0)]];
    [[Num (-6#1) * Var 22 / (Site 0 * Site 0 * Site 0 * Site 0);
    Num (-6#1) * Var 22 / (Site 0 * Site 0 * Site 0 * Site 0);
    Num (-6#1) * Var 22 / (Site 0 * Site 0 * Site 0 * Site 0) + Num (2#1) / (Site 0 * Site 0 * Site 0);
    Num (-6#1) * Var 22 / (Site 0 * Site 0 * Site 0 * Site 0);
    Num (-6#1) * Var 22 / (Site 0 * Site 0 * Site 0 * Site 0);
    Num (-6#1) * Var 22 / (Site 0 * Site 0 * Site 0 * Site 0);
    Num (-6#1) * Var 22 / (Site 0 * Site 0 * Site 0 * Site 0)];
    [Num (-6#1) * Var 22 / (Site 0 * Site 0 * Site 0 * Site 0);
    Num (-6#1) * Var 22 / (Site 0 * Site 0 * Site 0 * Site 0);
    Num (-6#1) * Var 22 / (Site 0 * Site 0 * Site 0 * Site 0) + Num (2#1) / (Site 0 * Site 0 * Site 0);
    Num (-6#1) * Var 22 / (Site 0 * Site 0 * Site 0 * Site 0);
    Num (-6#1) * Var 22 / (Site 0 * Site 0 * Site 0 * Site 0);
    Num (-6#1) * Var 22 / (Site 0 * Site 0 * Site 0 * Site 0);
    Num (-6#1) * Var 22 / (Site 0 * Site 0 * Site 0 * Site 0)];
    [Num (-6#1) * Var 22 / (Site 0 * Site 0 * Site 0 * Site 0) + Num (2#1) / (Site 0 * Site 0 * Site 0);
    Num (-6#1) * Var 22 / (Site 0 * Site 0 * Site 0 * Site 0) + Num (2#1) / (Site 0 * Site 0 * Site 0);
    Num (-6#1) * Var 22 / (Site 0 * Site 0 * Site 0 * Site 0) + Num (2#1) / (Site 0 * Site 0 * Site 0) + Num (2#1) / (Site 0 * Site 0 * Site 0);
    Num (-6#1) * Var 22 / (Site 0 * Site 0 * Site 0 * Site 0) + Num (2#1) / (Site 0 * Site 0 * Site 0);
    Num (-6#1) * Var 22 / (Site 0 * Site 0 * Site 0 * Site 0) + Num (2#1) / (Site 0 * Site 0 * Site 0);
    Num (-6#1) * Var 22 / (Site 0 * Site 0 * Site 0 * Site 0) + Num (2#1) / (Site 0 * Site 0 * Site 0);
    Num (-6#1) * Var 22 / (Site 0 * Site 0 * Site 0 * Site 0) + Num (2#1) / (Site 0 * Site 0 * Site 0)];
    [Num (-6#1) * Var 22 / (Site 0 * Site 0 * Site 0 * Site 0);
    Num (-6#1) * Var 22 / (Site 0 * Site 0 * Site 0 * Site 0);
    Num (-6#1) * Var 22 / (Site 0 * Site 0 * Site 0 * Site 0) + Num (2#1) / (Site 0 * Site 0 * Site 0);
    Num (-6#1) * Var 22 / (Site 0 * Site 0 * Site 0 * Site 0);
    Num (-6#1) * Var 22 / (Site 0 * Site 0 * Site 0 * Site 0);
    Num (-6#1) * Var 22 / (Site 0 * Site 0 * Site 0 * Site 0);
    Num (-6#1) * Var 22 / (Site 0 * Site 0 * Site 0 * Site 0)];
    [Num (-6#1) * Var 22 / (Site 0 * Site 0 * Site 0 * Site 0);
    Num (-6#1) * Var 22 / (Site 0 * Site 0 * Site 0 * Site 0);
    Num (-6#1) * Var 22 / (Site 0 * Site 0 * Site 0 * Site 0) + Num (2#1) / (Site 0 * Site 0 * Site 0);
    Num (-6#1) * Var 22 / (Site 0 * Site 0 * Site 0 * Site 0);
    Num (-6#1) * Var 22 / (Site 0 * Site 0 * Site 0 * Site 0);
    Num (-6#1) * Var 22 / (Site 0 * Site 0 * Site 0 * Site 0);
    Num (-6#1) * Var 22 / (Site 0 * Site 0 * Site 0 * Site 0)];
    [Num (-6#1) * Var 22 / (Site 0 * Site 0 * Site 0 * Site 0);
    Num (-6#1) * Var 22 / (Site 0 * Site 0 * Site 0 * Site 0);
    Num (-6#1) * Var 22 / (Site 0 * Site 0 * Site 0 * Site 0) + Num (2#1) / (Site 0 * Site 0 * Site 0);
    Num (-6#1) * Var 22 / (Site 0 * Site 0 * Site 0 * Site 0);
    Num (-6#1) * Var 22 / (Site 0 * Site 0 * Site 0 * Site 0);
    Num (-6#1) * Var 22 / (Site 0 * Site 0 * Site 0 * Site 0);
    Num (-6#1) * Var 22 / (Site 0 * Site 0 * Site 0 * Site 0)];
    [Num (-6#1) * Var 22 / (Site 0 * Site 0 * Site 0 * Site 0);
    Num (-6#1) * Var 22 / (Site 0 * Site 0 * Site 0 * Site 0);
    Num (-6#1) * Var 22 / (Site 0 * Site 0 * Site 0 * Site 0) + Num (2#1) / (Site 0 * Site 0 * Site 0);
    Num (-6#1) * Var 22 / (Site 0 * Site 0 * Site 0 * Site 0);
    Num (-6#1) * Var 22 / (Site 0 * Site 0 * Site 0 * Site 0);
    Num (-6#1) * Var 22 / (Site 0 * Site 0 * Site 0 * Site 0);
    Num (-6#1) * Var 22 / (Site 0 * Site 0 * Site 0 * Site 0)]];
    [[Num (-6#1) * Var 22 / (Site 0 * Site 0 * Site 0 * Site 0);
    Num (-6#1) * Var 22 / (Site 0 * Site 0 * Site 0 * Site 0);
    Num (-6#1) * Var 22 / (Site 0 * Site 0 * Site 0 * Site 0) + Num (2#1) / (Site 0 * Site 0 * Site 0);
    Num (-6#1) * Var 22 / (Site 0 * Site 0 * Site 0 * Site 0);
    Num (-6#1) * Var 22 / (Site 0 * Site 0 * Site 0 * Site 0);
    Num (-6#1) * Var 22 / (Site 0 * Site 0 * Site 0 * Site 0);
    Num (-6#1) * Var 22 / (Site 0 * Site 0 * Site 0 * Site 0)];
    [Num (-6#1) * Var 22 / (Site 0 * Site 0 * Site 0 * Site 0);
    Num (-6#1) * Var 22 / (Site 0 * Site 0 * Site 0 * Site 0);
    Num (-6#1) * Var 22 / (Site 0 * Site 0 * Site 0 * Site 0) + Num (2#1) / (Site 0 * Site 0 * Site 0);
    Num (-6#1) * Var 22 / (Site 0 * Site 0 * Site 0 * Site 0);
    Num (-6#1) * Var 22 / (Site 0 * Site 0 * Site 0 * Site 0);
    Num (-6#1) * Var 22 / (Site 0 * Site 0 * Site 0 * Site 0);
    Num (-6#1) * Var 22 / (Site 0 * Site 0 * Site 0 * Site 0)];
    [Num (-6#1) * Var 22 / (Site 0 * Site 0 * Site 0 * Site 0) + Num (2#1) / (Site 0 * Site 0 * Site 0);
    Num (-6#1) * Var 22 / (Site 0 * Site 0 * Site 0 * Site 0) + Num (2#1) / (Site 0 * Site 0 * Site 0);
    Num (-6#1) * Var 22 / (Site 0 * Site 0 * Site 0 * Site 0) + Num (2#1) / (Site 0 * Site 0 * Site 0) + Num (2#1) / (Site 0 * Site 0 * Site 0);
    Num (-6#1) * Var 22 / (Site 0 * Site 0 * Site 0 * Site 0) + Num (2#1) / (Site 0 * Site 0 * Site 0);
    Num (-6#1) * Var 22 / (Site 0 * Site 0 * Site 0 * Site 0) + Num (2#1) / (Site 0 * Site 0 * Site 0);
    Num (-6#1) * Var 22 / (Site 0 * Site 0 * Site 0 * Site 0) + Num (2#1) / (Site 0 * Site 0 * Site 0);
    Num (-6#1) * Var 22 / (Site 0 * Site 0 * Site 0 * Site 0) + Num (2#1) / (Site 0 * Site 0 * Site 0)];
    [Num (-6#1) * Var 22 / (Site 0 * Site 0 * Site 0 * Site 0);
    Num (-6#1) * Var 22 / (Site 0 * Site 0 * Site 0 * Site 0);
    Num (-6#1) * Var 22 / (Site 0 * Site 0 * Site 0 * Site 0) + Num (2#1) / (Site 0 * Site 0 * Site 0);
    Num (-6#1) * Var 22 / (Site 0 * Site 0 * Site 0 * Site 0);
    Num (-6#1) * Var 22 / (Site 0 * Site 0 * Site 0 * Site 0);
    Num (-6#1) * Var 22 / (Site 0 * Site 0 * Site 0 * Site 0);
    Num (-6#1) * Var 22 / (Site 0 * Site 0 * Site 0 * Site 0)];
    [Num (-6#1) * Var 22 / (Site 0 * Site 0 * Site 0 * Site 0);
    Num (-6#1) * Var 22 / (Site 0 * Site 0 * Site 0 * Site 0);
    Num (-6#1) * Var 22 / (Site 0 * Site 0 * Site 0 * Site 0) + Num (2#1) / (Site 0 * Site 0 * Site 0);
    Num (-6#1) * Var 22 / (Site 0 * Site 0 * Site 0 * Site 0);
    Num (-6#1) * Var 22 / (Site 0 * Site 0 * Site 0 * Site 0);
    Num (-6#1) * Var 22 / (Site 0 * Site 0 * Site 0 * Site 0);
    Num (-6#1) * Var 22 / (Site 0 * Site 0 * Site 0 * Site 0)];
    [Num (-6#1) * Var 22 / (Site 0 * Site 0 * Site 0 * Site 0);
    Num (-6#1) * Var 22 / (Site 0 * Site 0 * Site 0 * Site 0);
    Num (-6#1) * Var 22 / (Site 0 * Site 0 * Site 0 * Site 0) + Num (2#1) / (Site 0 * Site 0 * Site 0);
    Num (-6#1) * Var 22 / (Site 0 * Site 0 * Site 0 * Site 0);
    Num (-6#1) * Var 22 / (Site 0 * Site 0 * Site 0 * Site 0);
    Num (-6#1) * Var 22 / (Site 0 * Site 0 * Site 0 * Site 0);
    Num (-6#1) * Var 22 / (Site 0 * Site 0 * Site 0 * Site 0)];
    [Num (-6#1) * Var 22 / (Site 0 * Site 0 * Site 0 * Site 0);
    Num (-6#1) * Var 22 / (Site 0 * Site 0 * Site 0 * Site 0);
    Num (-6#1) * Var 22 / (Site 0 * Site 0 * Site 0 * Site 0) + Num (2#1) / (Site 0 * Site 0 * Site 0);
    Num (-6#1) * Var 22 / (Site 0 * Site 0 * Site 0 * Site 0);
    Num (-6#1) * Var 22 / (Site 0 * Site 0 * Site 0 * Site 0);
    Num (-6#1) * Var 22 / (Site 0 * Site 0 * Site 0 * Site 0);
    Num (-6#1) * Var 22 / (Site 0 * Site 0 * Site 0 * Site 0)]]];
    [[[Num (-6#1) * (Var 23 + Var 26 / Num (2#1)) / (Site 0 * Site 0 * Site 0 * Site 0);
    Num (-6#1) * (Var 23 + Var 26 / Num (2#1)) / (Site 0 * Site 0 * Site 0 * Site 0);
    Num (-6#1) * (Var 23 + Var 26 / Num (2#1)) / (Site 0 * Site 0 * Site 0 * Site 0);
    Num (-6#1) * (Var 23 + Var 26 / Num (2#1)) / (Site 0 * Site 0 * Site 0 * Site 0) + Num (2#1) / (Site 0 * Site 0 * Site 0);
    Num (-6#1) * (Var 23 + Var 26 / Num (2#1)) / (Site 0 * Site 0 * Site 0 * Site 0);
    Num (-6#1) * (Var 23 + Var 26 / Num (2#1)) / (Site 0 * Site 0 * Site 0 * Site 0);
    Num (-6#1) * (Var 23 + Var 26 / Num (2#1)) / (Site 0 * Site 0 * Site 0 * Site 0) + Num (1#1) / (Site 0 * Site 0 * Site 0)];
    [Num (-6#1) * (Var 23 + Var 26 / Num (2#1)) / (Site 0 * Site 0 * Site 0 * Site 0);
    Num (-6#1) * (Var 23 + Var 26 / Num (2#1)) / (Site 0 * Site 0 * Site 0 * Site 0);
    Num (-6#1) * (Var 23 + Var 26 / Num (2#1)) / (Site 0 * Site 0 * Site 0 * Site 0);
    Num (-6#1) * (Var 23 + Var 26 / Num (2#1)) / (Site 0 * Site 0 * Site 0 * Site 0) + Num (2#1) / (Site 0 * Site 0 * Site 0);
    Num (-6#1) * (Var 23 + Var 26 / Num (2#1)) / (Site 0 * Site 0 * Site 0 * Site 0);
    Num (-6#1) * (Var 23 + Var 26 / Num (2#1)) / (Site 0 * Site 0 * Site 0 * Site 0);
    Num (-6#1) * (Var 23 + Var 26 / Num (2#1)) / (Site 0 * Site 0 * Site 0 * Site 0) + Num (1#1) / (Site 0 * Site 0 * Site 0)];
    [Num (-6#1) * (Var 23 + Var 26 / Num (2#1)) / (Site 0 * Site 0 * Site 0 * Site 0);
    Num (-6#1) * (Var 23 + Var 26 / Num (2#1)) / (Site 0 * Site 0 * Site 0 * Site 0);
    Num (-6#1) * (Var 23 + Var 26 / Num (2#1)) / (Site 0 * Site 0 * Site 0 * Site 0);
    Num (-6#1) * (Var 23 + Var 26 / Num (2#1)) / (Site 0 * Site 0 * Site 0 * Site 0) + Num (2#1) / (Site 0 * Site 0 * Site 0);
    Num (-6#1) * (Var 23 + Var 26 / Num (2#1)) / (Site 0 * Site 0 * Site 0 * Site 0);
    Num (-6#1) * (Var 23 + Var 26 / Num (2#1)) / (Site 0 * Site 0 * Site 0 * Site 0);
    Num (-6#1) * (Var 23 + Var 26 / Num (2#1)) / (Site 0 * Site 0 * Site 0 * Site 0) + Num (1#1) / (Site 0 * Site 0 * Site 0)];
    [Num (-6#1) * (Var 23 + Var 26 / Num (2#1)) / (Site 0 * Site 0 * Site 0 * Site 0) + Num (2#1) / (Site 0 * Site 0 * Site 0);
    Num (-6#1) * (Var 23 + Var 26 / Num (2#1)) / (Site 0 * Site 0 * Site 0 * Site 0) + Num (2#1) / (Site 0 * Site 0 * Site 0);
    Num (-6#1) * (Var 23 + Var 26 / Num (2#1)) / (Site 0 * Site 0 * Site 0 * Site 0) + Num (2#1) / (Site 0 * Site 0 * Site 0);
    Num (-6#1) * (Var 23 + Var 26 / Num (2#1)) / (Site 0 * Site 0 * Site 0 * Site 0) + Num (2#1) / (Site 0 * Site 0 * Site 0) + Num (2#1) / (Site 0 * Site 0 * Site 0);
    Num (-6#1) * (Var 23 + Var 26 / Num (2#1)) / (Site 0 * Site 0 * Site 0 * Site 0) + Num (2#1) / (Site 0 * Site 0 * Site 0);
    Num (-6#1) * (Var 23 + Var 26 / Num (2#1)) / (Site 0 * Site 0 * Site 0 * Site 0) + Num (2#1) / (Site 0 * Site 0 * Site 0);
    Num (-6#1) * (Var 23 + Var 26 / Num (2#1)) / (Site 0 * Site 0 * Site 0 * Site 0) + Num (2#1) / (Site 0 * Site 0 * Site 0) + Num (1#1) / (Site 0 * Site 0 * Site 0)];
    [Num (-6#1) * (Var 23 + Var 26 / Num (2#1)) / (Site 0 * Site 0 * Site 0 * Site 0);
    Num (-6#1) * (Var 23 + Var 26 / Num (2#1)) / (Site 0 * Site 0 * Site 0 * Site 0);
    Num (-6#1) * (Var 23 + Var 26 / Num (2#1)) / (Site 0 * Site 0 * Site 0 * Site 0);
    Num (-6#1) * (Var 23 + Var 26 / Num (2#1)) / (Site 0 * Site 0 * Site 0 * Site 0) + Num (2#1) / (Site 0 * Site 0 * Site 0);
    Num (-6#1) * (Var 23 + Var 26 / Num (2#1)) / (Site 0 * Site 0 * Site 0 * Site 0);
    Num (-6#1) * (Var 23 + Var 26 / Num (2#1)) / (Site 0 * Site 0 * Site 0 * Site 0);
    Num (-6#1) * (Var 23 + Var 26 / Num (2#1)) / (Site 0 * Site 0 * Site 0 * Site 0) + Num (1#1) / (Site 0 * Site 0 * Site 0)];
    [Num (-6#1) * (Var 23 + Var 26 / Num (2#1)) / (Site 0 * Site 0 * Site 0 * Site 0);
    Num (-6#1) * (Var 23 + Var 26 / Num (2#1)) / (Site 0 * Site 0 * Site 0 * Site 0);
    Num (-6#1) * (Var 23 + Var 26 / Num (2#1)) / (Site 0 * Site 0 * Site 0 * Site 0);
    Num (-6#1) * (Var 23 + Var 26 / Num (2#1)) / (Site 0 * Site 0 * Site 0 * Site 0) + Num (2#1) / (Site 0 * Site 0 * Site 0);
    Num (-6#1) * (Var 23 + Var 26 / Num (2#1)) / (Site 0 * Site 0 * Site 0 * Site 0);
    Num (-6#1) * (Var 23 + Var 26 / Num (2#1)) / (Site 0 * Site 0 * Site 0 * Site 0);
    Num (-6#1) * (Var 23 + Var 26 / Num (2#1)) / (Site 0 * Site 0 * Site 0 * Site 0) + Num (1#1) / (Site 0 * Site 0 * Site 0)];
    [Num (-6#1) * (Var 23 + Var 26 / Num (2#1)) / (Site 0 * Site 0 * Site 0 * Site 0) + Num (1#1) / (Site 0 * Site 0 * Site 0);
    Num (-6#1) * (Var 23 + Var 26 / Num (2#1)) / (Site 0 * Site 0 * Site 0 * Site 0) + Num (1#1) / (Site 0 * Site 0 * Site 0);
    Num (-6#1) * (Var 23 + Var 26 / Num (2#1)) / (Site 0 * Site 0 * Site 0 * Site 0) + Num (1#1) / (Site 0 * Site 0 * Site 0);
    Num (-6#1) * (Var 23 + Var 26 / Num (2#1)) / (Site 0 * Site 0 * Site 0 * Site 0) + Num (2#1) / (Site 0 * Site 0 * Site 0) + Num (1#1) / (Site 0 * Site 0 * Site 0);
    Num (-6#1) * (Var 23 + Var 26 / Num (2#1)) / (Site 0 * Site 0 * Site 0 * Site 0) + Num (1#1) / (Site 0 * Site 0 * Site 0);
    Num (-6#1) * (Var 23 + Var 26 / Num (2#1)) / (Site 0 * Site 0 * Site 0 * Site 0) + Num (1#1) / (Site 0 * Site 0 * Site 0);
    Num (-6#1) * (Var 23 + Var 26 / Num (2#1)) / (Site 0 * Site 0 * Site 0 * Site 0) + Num (1#1) / (Site 0 * Site 0 * Site 0) + Num (1#1) / (Site 0 * Site 0 * Site 0)]];
    [[Num (-6#1) * (Var 23 + Var 26 / Num (2#1)) / (Site 0 * Site 0 * Site 0 * Site 0);
    Num (-6#1) * (Var 23 + Var 26 / Num (2#1)) / (Site 0 * Site 0 * Site 0 * Site 0);
    Num (-6#1) * (Var 23 + Var 26 / Num (2#1)) / (Site 0 * Site 0 * Site 0 * Site 0);
    Num (-6#1) * (Var 23 + Var 26 / Num (2#1)) / (Site 0 * Site 0 * Site 0 * Site 0) + Num (2#1) / (Site 0 * Site 0 * Site 0);
    Num (-6#1) * (Var 23 + Var 26 / Num (2#1)) / (Site 0 * Site 0 * Site 0 * Site 0);
    Num (-6#1) * (Var 23 + Var 26 / Num (2#1)) / (Site 0 * Site 0 * Site 0 * Site 0);
    Num (-6#1) * (Var 23 + Var 26 / Num (2#1)) / (Site 0 * Site 0 * Site 0 * Site 0) + Num (1#1) / (Site 0 * Site 0 * Site 0)];
    [Num (-6#1) * (Var 23 + Var 26 / Num (2#1)) / (Site 0 * Site 0 * Site 0 * Site 0);
    Num (-6#1) * (Var 23 + Var 26 / Num (2#1)) / (Site 0 * Site 0 * Site 0 * Site 0);
    Num (-6#1) * (Var 23 + Var 26 / Num (2#1)) / (Site 0 * Site 0 * Site 0 * Site 0);
    Num (-6#1) * (Var 23 + Var 26 / Num (2#1)) / (Site 0 * Site 0 * Site 0 * Site 0) + Num (2#1) / (Site 0 * Site 0 * Site 0);
    Num (-6#1) * (Var 23 + Var 26 / Num (2#1)) / (Site 0 * Site 0 * Site 0 * Site 0);
    Num (-6#1) * (Var 23 + Var 26 / Num (2#1)) / (Site 0 * Site 0 * Site 0 * Site 0);
    Num (-6#1) * (Var 23 + Var 26 / Num (2#1)) / (Site 0 * Site 0 * Site 0 * Site 0) + Num (1#1) / (Site 0 * Site 0 * Site 0)];
    [Num (-6#1) * (Var 23 + Var 26 / Num (2#1)) / (Site 0 * Site 0 * Site 0 * Site 0);
    Num (-6#1) * (Var 23 + Var 26 / Num (2#1)) / (Site 0 * Site 0 * Site 0 * Site 0);
    Num (-6#1) * (Var 23 + Var 26 / Num (2#1)) / (Site 0 * Site 0 * Site 0 * Site 0);
    Num (-6#1) * (Var 23 + Var 26 / Num (2#1)) / (Site 0 * Site 0 * Site 0 * Site 0) + Num (2#1) / (Site 0 * Site 0 * Site 0);
    Num (-6#1) * (Var 23 + Var 26 / Num (2#1)) / (Site 0 * Site 0 * Site 0 * Site 0);
    Num (-6#1) * (Var 23 + Var 26 / Num (2#1)) / (Site 0 * Site 0 * Site 0 * Site 0);
    Num (-6#1) * (Var 23 + Var 26 / Num (2#1)) / (Site 0 * Site 0 * Site 0 * Site 0) + Num (1#1) / (Site 0 * Site 0 * Site 0)];
    [Num (-6#1) * (Var 23 + Var 26 / Num (2#1)) / (Site 0 * Site 0 * Site 0 * Site 0) + Num (2#1) / (Site 0 * Site 0 * Site 0);
    Num (-6#1) * (Var 23 + Var 26 / Num (2#1)) / (Site 0 * Site 0 * Site 0 * Site 0) + Num (2#1) / (Site 0 * Site 0 * Site 0);
    Num (-6#1) * (Var 23 + Var 26 / Num (2#1)) / (Site 0 * Site 0 * Site 0 * Site 0) + Num (2#1) / (Site 0 * Site 0 * Site 0);
    Num (-6#1) * (Var 23 + Var 26 / Num (2#1)) / (Site 0 * Site 0 * Site 0 * Site 0) + Num (2#1) / (Site 0 * Site 0 * Site 0) + Num (2#1) / (Site 0 * Site 0 * Site 0);
    Num (-6#1) * (Var 23 + Var 26 / Num (2#1)) / (Site 0 * Site 0 * Site 0 * Site 0) + Num (2#1) / (Site 0 * Site 0 * Site 0);
    Num (-6#1) * (Var 23 + Var 26 / Num (2#1)) / (Site 0 * Site 0 * Site 0 * Site 0) + Num (2#1) / (Site 0 * Site 0 * Site 0);
    Num (-6#1) * (Var 23 + Var 26 / Num (2#1)) / (Site 0 * Site 0 * Site 0 * Site 0) + Num (2#1) / (Site 0 * Site 0 * Site 0) + Num (1#1) / (Site 0 * Site 0 * Site 0)];
    [Num (-6#1) * (Var 23 + Var 26 / Num (2#1)) / (Site 0 * Site 0 * Site 0 * Site 0);
    Num (-6#1) * (Var 23 + Var 26 / Num (2#1)) / (Site 0 * Site 0 * Site 0 * Site 0);
    Num (-6#1) * (Var 23 + Var 26 / Num (2#1)) / (Site 0 * Site 0 * Site 0 * Site 0);
    Num (-6#1) * (Var 23 + Var 26 / Num (2#1)) / (Site 0 * Site 0 * Site 0 * Site 0) + Num (2#1) / (Site 0 * Site 0 * Site 0);
    Num (-6#1) * (Var 23 + Var 26 / Num (2#1)) / (Site 0 * Site 0 * Site 0 * Site 0);
    Num (-6#1) * (Var 23 + Var 26 / Num (2#1)) / (Site 0 * Site 0 * Site 0 * Site 0);
    Num (-6#1) * (Var 23 + Var 26 / Num (2#1)) / (Site 0 * Site 0 * Site 0 * Site 0) + Num (1#1) / (Site 0 * Site 0 * Site 0)];
    [Num (-6#1) * (Var 23 + Var 26 / Num (2#1)) / (Site 0 * Site 0 * Site 0 * Site 0);
    Num (-6#1) * (Var 23 + Var 26 / Num (2#1)) / (Site 0 * Site 0 * Site 0 * Site 0);
    Num (-6#1) * (Var 23 + Var 26 / Num (2#1)) / (Site 0 * Site 0 * Site 0 * Site 0);
    Num (-6#1) * (Var 23 + Var 26 / Num (2#1)) / (Site 0 * Site 0 * Site 0 * Site 0) + Num (2#1) / (Site 0 * Site 0 * Site 0);
    Num (-6#1) * (Var 23 + Var 26 / Num (2#1)) / (Site 0 * Site 0 * Site 0 * Site 0);
    Num (-6#1) * (Var 23 + Var 26 / Num (2#1)) / (Site 0 * Site 0 * Site 0 * Site 0);
    Num (-6#1) * (Var 23 + Var 26 / Num (2#1)) / (Site 0 * Site 0 * Site 0 * Site 0) + Num (1#1) / (Site 0 * Site 0 * Site 0)];
    [Num (-6#1) * (Var 23 + Var 26 / Num (2#1)) / (Site 0 * Site 0 * Site 0 * Site 0) + Num (1#1) / (Site 0 * Site 0 * Site 0);
    Num (-6#1) * (Var 23 + Var 26 / Num (2#1)) / (Site 0 * Site 0 * Site 0 * Site 0) + Num (1#1) / (Site 0 * Site 0 * Site 0);
    Num (-6#1) * (Var 23 + Var 26 / Num (2#1)) / (Site 0 * Site 0 * Site 0 * Site 0) + Num (1#1) / (Site 0 * Site 0 * Site 0);
    Num (-6#1) * (Var 23 + Var 26 / Num (2#1)) / (Site 0 * Site 0 * Site 0 * Site 0) + Num (2#1) / (Site 0 * Site 0 * Site 0) + Num (1#1) / (Site 0 * Site 0 * Site 0);
    Num (-6#1) * (Var 23 + Var 26 / Num (2#1)) / (Site 0 * Site 0 * Site 0 * Site 0) + Num (1#1) / (Site 0 * Site 0 * Site 0);
    Num (-6#1) * (Var 23 + Var 26 / Num (2#1)) / (Site 0 * Site 0 * Site 0 * Site 0) + Num (1#1) / (Site 0 * Site 0 * Site 0);
    Num (-6#1) * (Var 23 + Var 26 / Num (2#1)) / (Site 0 * Site 0 * Site 0 * Site 0) + Num (1#1) / (Site 0 * Site 0 * Site 0) + Num (1#1) / (Site 0 * Site 0 * Site 0)]];
    [[Num (-6#1) * (Var 23 + Var 26 / Num (2#1)) / (Site 0 * Site 0 * Site 0 * Site 0);
    Num (-6#1) * (Var 23 + Var 26 / Num (2#1)) / (Site 0 * Site 0 * Site 0 * Site 0);
    Num (-6#1) * (Var 23 + Var 26 / Num (2#1)) / (Site 0 * Site 0 * Site 0 * Site 0);
    Num (-6#1) * (Var 23 + Var 26 / Num (2#1)) / (Site 0 * Site 0 * Site 0 * Site 0) + Num (2#1) / (Site 0 * Site 0 * Site 0);
    Num (-6#1) * (Var 23 + Var 26 / Num (2#1)) / (Site 0 * Site 0 * Site 0 * Site 0);
    Num (-6#1) * (Var 23 + Var 26 / Num (2#1)) / (Site 0 * Site 0 * Site 0 * Site 0);
    Num (-6#1) * (Var 23 + Var 26 / Num (2#1)) / (Site 0 * Site 0 * Site 0 * Site 0) + Num (1#1) / (Site 0 * Site 0 * Site 0)];
    [Num (-6#1) * (Var 23 + Var 26 / Num (2#1)) / (Site 0 * Site 0 * Site 0 * Site 0);
    Num (-6#1) * (Var 23 + Var 26 / Num (2#1)) / (Site 0 * Site 0 * Site 0 * Site 0);
    Num (-6#1) * (Var 23 + Var 26 / Num (2#1)) / (Site 0 * Site 0 * Site 0 * Site 0);
    Num (-6#1) * (Var 23 + Var 26 / Num (2#1)) / (Site 0 * Site 0 * Site 0 * Site 0) + Num (2#1) / (Site 0 * Site 0 * Site 0);
    Num (-6#1) * (Var 23 + Var 26 / Num (2#1)) / (Site 0 * Site 0 * Site 0 * Site 0);
    Num (-6#1) * (Var 23 + Var 26 / Num (2#1)) / (Site 0 * Site 0 * Site 0 * Site 0);
    Num (-6#1) * (Var 23 + Var 26 / Num (2#1)) / (Site 0 * Site 0 * Site 0 * Site 0) + Num (1#1) / (Site 0 * Site 0 * Site 0)];
    [Num (-6#1) * (Var 23 + Var 26 / Num (2#1)) / (Site 0 * Site 0 * Site 0 * Site 0);
    Num (-6#1) * (Var 23 + Var 26 / Num (2#1)) / (Site 0 * Site 0 * Site 0 * Site 0);
    Num (-6#1) * (Var 23 + Var 26 / Num (2#1)) / (Site 0 * Site 0 * Site 0 * Site 0);
    Num (-6#1) * (Var 23 + Var 26 / Num (2#1)) / (Site 0 * Site 0 * Site 0 * Site 0) + Num (2#1) / (Site 0 * Site 0 * Site 0);
    Num (-6#1) * (Var 23 + Var 26 / Num (2#1)) / (Site 0 * Site 0 * Site 0 * Site 0);
    Num (-6#1) * (Var 23 + Var 26 / Num (2#1)) / (Site 0 * Site 0 * Site 0 * Site 0);
    Num (-6#1) * (Var 23 + Var 26 / Num (2#1)) / (Site 0 * Site 0 * Site 0 * Site 0) + Num (1#1) / (Site 0 * Site 0 * Site 0)];
    [Num (-6#1) * (Var 23 + Var 26 / Num (2#1)) / (Site 0 * Site 0 * Site 0 * Site 0) + Num (2#1) / (Site 0 * Site 0 * Site 0);
    Num (-6#1) * (Var 23 + Var 26 / Num (2#1)) / (Site 0 * Site 0 * Site 0 * Site 0) + Num (2#1) / (Site 0 * Site 0 * Site 0);
    Num (-6#1) * (Var 23 + Var 26 / Num (2#1)) / (Site 0 * Site 0 * Site 0 * Site 0) + Num (2#1) / (Site 0 * Site 0 * Site 0);
    Num (-6#1) * (Var 23 + Var 26 / Num (2#1)) / (Site 0 * Site 0 * Site 0 * Site 0) + Num (2#1) / (Site 0 * Site 0 * Site 0) + Num (2#1) / (Site 0 * Site 0 * Site 0);
    Num (-6#1) * (Var 23 + Var 26 / Num (2#1)) / (Site 0 * Site 0 * Site 0 * Site 0) + Num (2#1) / (Site 0 * Site 0 * Site 0);
    Num (-6#1) * (Var 23 + Var 26 / Num (2#1)) / (Site 0 * Site 0 * Site 0 * Site 0) + Num (2#1) / (Site 0 * Site 0 * Site 0);
    Num (-6#1) * (Var 23 + Var 26 / Num (2#1)) / (Site 0 * Site 0 * Site 0 * Site 0) + Num (2#1) / (Site 0 * Site 0 * Site 0) + Num (1#1) / (Site 0 * Site 0 * Site 0)];
    [Num (-6#1) * (Var 23 + Var 26 / Num (2#1)) / (Site 0 * Site 0 * Site 0 * Site 0);
    Num (-6#1) * (Var 23 + Var 26 / Num (2#1)) / (Site 0 * Site 0 * Site 0 * Site 0);
    Num (-6#1) * (Var 23 + Var 26 / Num (2#1)) / (Site 0 * Site 0 * Site 0 * Site 0);
    Num (-6#1) * (Var 23 + Var 26 / Num (2#1)) / (Site 0 * Site 0 * Site 0 * Site 0) + Num (2#1) / (Site 0 * Site 0 * Site 0);
    Num (-6#1) * (Var 23 + Var 26 / Num (2#1)) / (Site 0 * Site 0 * Site 0 * Site 0);
    Num (-6#1) * (Var 23 + Var 26 / Num (2#1)) / (Site 0 * Site 0 * Site 0 * Site 0);
    Num (-6#1) * (Var 23 + Var 26 / Num (2#1)) / (Site 0 * Site 0 * Site 0 * Site 0) + Num (1#1) / (Site 0 * Site 0 * Site 0)];
    [Num (-6#1) * (Var 23 + Var 26 / Num (2#1)) / (Site 0 * Site 0 * Site 0 * Site 0);
    Num (-6#1) * (Var 23 + Var 26 / Num (2#1)) / (Site 0 * Site 0 * Site 0 * Site 0);
    Num (-6#1) * (Var 23 + Var 26 / Num (2#1)) / (Site 0 * Site 0 * Site 0 * Site 0);
    Num (-6#1) * (Var 23 + Var 26 / Num (2#1)) / (Site 0 * Site 0 * Site 0 * Site 0) + Num (2#1) / (Site 0 * Site 0 * Site 0);
    Num (-6#1) * (Var 23 + Var 26 / Num (2#1)) / (Site 0 * Site 0 * Site 0 * Site 0);
    Num (-6#1) * (Var 23 + Var 26 / Num (2#1)) / (Site 0 * Site 0 * Site 0 * Site 0);
    Num (-6#1) * (Var 23 + Var 26 / Num (2#1)) / (Site 0 * Site 0 * Site 0 * Site 0) + Num (1#1) / (Site 0 * Site 0 * Site 0)];
    [Num (-6#1) * (Var 23 + Var 26 / Num (2#1)) / (Site 0 * Site 0 * Site 0 * Site 0) + Num (1#1) / (Site 0 * Site 0 * Site 0);
    Num (-6#1) * (Var 23 + Var 26 / Num (2#1)) / (Site 0 * Site 0 * Site 0 * Site 0) + Num (1#1) / (Site 0 * Site 0 * Site 0);
    Num (-6#1) * (Var 23 + Var 26 / Num (2#1)) / (Site 0 * Site 0 * Site 0 * Site 0) + Num (1#1) / (Site 0 * Site 0 * Site 0);
    Num (-6#1) * (Var 23 + Var 26 / Num (2#1)) / (Site 0 * Site 0 * Site 0 * Site 0) + Num (2#1) / (Site 0 * Site 0 * Site 0) + Num (1#1) / (Site 0 * Site 0 * Site 0);
    Num (-6#1) * (Var 23 + Var 26 / Num (2#1)) / (Site 0 * Site 0 * Site 0 * Site 0) + Num (1#1) / (Site 0 * Site 0 * Site 0);
    Num (-6#1) * (Var 23 + Var 26 / Num (2#1)) / (Site 0 * Site 0 * Site 0 * Site 0) + Num (1#1) / (Site 0 * Site 0 * Site 0);
    Num (-6#1) * (Var 23 + Var 26 / Num (2#1)) / (Site 0 * Site 0 * Site 0 * Site 0) + Num (1#1) / (Site 0 * Site 0 * Site 0) + Num (1#1) / (Site 0 * Site 0 * Site 0)]];
    [[Num (-6#1) * (Var 23 + Var 26 / Num (2#1)) / (Site 0 * Site 0 * Site 0 * Site 0) + Num (2#1) / (Site 0 * Site 0 * Site 0);
    Num (-6#1) * (Var 23 + Var 26 / Num (2#1)) / (Site 0 * Site 0 * Site 0 * Site 0) + Num (2#1) / (Site 0 * Site 0 * Site 0);
    Num (-6#1) * (Var 23 + Var 26 / Num (2#1)) / (Site 0 * Site 0 * Site 0 * Site 0) + Num (2#1) / (Site 0 * Site 0 * Site 0);
    Num (-6#1) * (Var 23 + Var 26 / Num (2#1)) / (Site 0 * Site 0 * Site 0 * Site 0) + Num (2#1) / (Site 0 * Site 0 * Site 0) + Num (2#1) / (Site 0 * Site 0 * Site 0);
    Num (-6#1) * (Var 23 + Var 26 / Num (2#1)) / (Site 0 * Site 0 * Site 0 * Site 0) + Num (2#1) / (Site 0 * Site 0 * Site 0);
    Num (-6#1) * (Var 23 + Var 26 / Num (2#1)) / (Site 0 * Site 0 * Site 0 * Site 0) + Num (2#1) / (Site 0 * Site 0 * Site 0);
    Num (-6#1) * (Var 23 + Var 26 / Num (2#1)) / (Site 0 * Site 0 * Site 0 * Site 0) + Num (2#1) / (Site 0 * Site 0 * Site 0) + Num (1#1) / (Site 0 * Site 0 * Site 0)];
    [Num (-6#1) * (Var 23 + Var 26 / Num (2#1)) / (Site 0 * Site 0 * Site 0 * Site 0) + Num (2#1) / (Site 0 * Site 0 * Site 0);
    Num (-6#1) * (Var 23 + Var 26 / Num (2#1)) / (Site 0 * Site 0 * Site 0 * Site 0) + Num (2#1) / (Site 0 * Site 0 * Site 0);
    Num (-6#1) * (Var 23 + Var 26 / Num (2#1)) / (Site 0 * Site 0 * Site 0 * Site 0) + Num (2#1) / (Site 0 * Site 0 * Site 0);
    Num (-6#1) * (Var 23 + Var 26 / Num (2#1)) / (Site 0 * Site 0 * Site 0 * Site 0) + Num (2#1) / (Site 0 * Site 0 * Site 0) + Num (2#1) / (Site 0 * Site 0 * Site 0);
    Num (-6#1) * (Var 23 + Var 26 / Num (2#1)) / (Site 0 * Site 0 * Site 0 * Site 0) + Num (2#1) / (Site 0 * Site 0 * Site 0);
    Num (-6#1) * (Var 23 + Var 26 / Num (2#1)) / (Site 0 * Site 0 * Site 0 * Site 0) + Num (2#1) / (Site 0 * Site 0 * Site 0);
    Num (-6#1) * (Var 23 + Var 26 / Num (2#1)) / (Site 0 * Site 0 * Site 0 * Site 0) + Num (2#1) / (Site 0 * Site 0 * Site 0) + Num (1#1) / (Site 0 * Site 0 * Site 0)];
    [Num (-6#1) * (Var 23 + Var 26 / Num (2#1)) / (Site 0 * Site 0 * Site 0 * Site 0) + Num (2#1) / (Site 0 * Site 0 * Site 0);
    Num (-6#1) * (Var 23 + Var 26 / Num (2#1)) / (Site 0 * Site 0 * Site 0 * Site 0) + Num (2#1) / (Site 0 * Site 0 * Site 0);
    Num (-6#1) * (Var 23 + Var 26 / Num (2#1)) / (Site 0 * Site 0 * Site 0 * Site 0) + Num (2#1) / (Site 0 * Site 0 * Site 0);
    Num (-6#1) * (Var 23 + Var 26 / Num (2#1)) / (Site 0 * Site 0 * Site 0 * Site 0) + Num (2#1) / (Site 0 * Site 0 * Site 0) + Num (2#1) / (Site 0 * Site 0 * Site 0);
    Num (-6#1) * (Var 23 + Var 26 / Num (2#1)) / (Site 0 * Site 0 * Site 0 * Site 0) + Num (2#1) / (Site 0 * Site 0 * Site 0);
    Num (-6#1) * (Var 23 + Var 26 / Num (2#1)) / (Site 0 * Site 0 * Site 0 * Site 0) + Num (2#1) / (Site 0 * Site 0 * Site 0);
    Num (-6#1) * (Var 23 + Var 26 / Num (2#1)) / (Site 0 * Site 0 * Site 0 * Site 0) + Num (2#1) / (Site 0 * Site 0 * Site 0) + Num (1#1) / (Site 0 * Site 0 * Site 0)];
    [Num (-6#1) * (Var 23 + Var 26 / Num (2#1)) / (Site 0 * Site 0 * Site 0 * Site 0) + Num (2#1) / (Site 0 * Site 0 * Site 0) + Num (2#1) / (Site 0 * Site 0 * Site 0);
    Num (-6#1) * (Var 23 + Var 26 / Num (2#1)) / (Site 0 * Site 0 * Site 0 * Site 0) + Num (2#1) / (Site 0 * Site 0 * Site 0) + Num (2#1) / (Site 0 * Site 0 * Site 0);
    Num (-6#1) * (Var 23 + Var 26 / Num (2#1)) / (Site 0 * Site 0 * Site 0 * Site 0) + Num (2#1) / (Site 0 * Site 0 * Site 0) + Num (2#1) / (Site 0 * Site 0 * Site 0);
    Num (-6#1) * (Var 23 + Var 26 / Num (2#1)) / (Site 0 * Site 0 * Site 0 * Site 0) + Num (2#1) / (Site 0 * Site 0 * Site 0) + Num (2#1) / (Site 0 * Site 0 * Site 0) + Num (2#1) / (Site 0 * Site 0 * Site 0);
    Num (-6#1) * (Var 23 + Var 26 / Num (2#1)) / (Site 0 * Site 0 * Site 0 * Site 0) + Num (2#1) / (Site 0 * Site 0 * Site 0) + Num (2#1) / (Site 0 * Site 0 * Site 0);
    Num (-6#1) * (Var 23 + Var 26 / Num (2#1)) / (Site 0 * Site 0 * Site 0 * Site 0) + Num (2#1) / (Site 0 * Site 0 * Site 0) + Num (2#1) / (Site 0 * Site 0 * Site 0);
    Num (-6#1) * (Var 23 + Var 26 / Num (2#1)) / (Site 0 * Site 0 * Site 0 * Site 0) + Num (2#1) / (Site 0 * Site 0 * Site 0) + Num (2#1) / (Site 0 * Site 0 * Site 0) + Num (1#1) / (Site 0 * Site 0 * Site 0)];
    [Num (-6#1) * (Var 23 + Var 26 / Num (2#1)) / (Site 0 * Site 0 * Site 0 * Site 0) + Num (2#1) / (Site 0 * Site 0 * Site 0);
    Num (-6#1) * (Var 23 + Var 26 / Num (2#1)) / (Site 0 * Site 0 * Site 0 * Site 0) + Num (2#1) / (Site 0 * Site 0 * Site 0);
    Num (-6#1) * (Var 23 + Var 26 / Num (2#1)) / (Site 0 * Site 0 * Site 0 * Site 0) + Num (2#1) / (Site 0 * Site 0 * Site 0);
    Num (-6#1) * (Var 23 + Var 26 / Num (2#1)) / (Site 0 * Site 0 * Site 0 * Site 0) + Num (2#1) / (Site 0 * Site 0 * Site 0) + Num (2#1) / (Site 0 * Site 0 * Site 0);
    Num (-6#1) * (Var 23 + Var 26 / Num (2#1)) / (Site 0 * Site 0 * Site 0 * Site 0) + Num (2#1) / (Site 0 * Site 0 * Site 0);
    Num (-6#1) * (Var 23 + Var 26 / Num (2#1)) / (Site 0 * Site 0 * Site 0 * Site 0) + Num (2#1) / (Site 0 * Site 0 * Site 0);
    Num (-6#1) * (Var 23 + Var 26 / Num (2#1)) / (Site 0 * Site 0 * Site 0 * Site 0) + Num (2#1) / (Site 0 * Site 0 * Site 0) + Num (1#1) / (Site 0 * Site 0 * Site 0)];
    [Num (-6#1) * (Var 23 + Var 26 / Num (2#1)) / (Site 0 * Site 0 * Site 0 * Site 0) + Num (2#1) / (Site 0 * Site 0 * Site 0);
    Num (-6#1) * (Var 23 + Var 26 / Num (2#1)) / (Site 0 * Site 0 * Site 0 * Site 0) + Num (2#1) / (Site 0 * Site 0 * Site 0);
    Num (-6#1) * (Var 23 + Var 26 / Num (2#1)) / (Site 0 * Site 0 * Site 0 * Site 0) + Num (2#1) / (Site 0 * Site 0 * Site 0);
    Num (-6#1) * (Var 23 + Var 26 / Num (2#1)) / (Site 0 * Site 0 * Site 0 * Site 0) + Num (2#1) / (Site 0 * Site 0 * Site 0) + Num (2#1) / (Site 0 * Site 0 * Site 0);
    Num (-6#1) * (Var 23 + Var 26 / Num (2#1)) / (Site 0 * Site 0 * Site 0 * Site 0) + Num (2#1) / (Site 0 * Site 0 * Site 0);
    Num (-6#1) * (Var 23 + Var 26 / Num (2#1)) / (Site 0 * Site 0 * Site 0 * Site 0) + Num (2#1) / (Site 0 * Site 0 * Site 0);
    Num (-6#1) * (Var 23 + Var 26 / Num (2#1)) / (Site 0 * Site 0 * Site 0 * Site 0) + Num (2#1) / (Site 0 * Site 0 * Site 0) + Num (1#1) / (Site 0 * Site 0 * Site 0)];
    [Num (-6#1) * (Var 23 + Var 26 / Num (2#1)) / (Site 0 * Site 0 * Site 0 * Site 0) + Num (2#1) / (Site 0 * Site 0 * Site 0) + Num (1#1) / (Site 0 * Site 0 * Site 0);
    Num (-6#1) * (Var 23 + Var 26 / Num (2#1)) / (Site 0 * Site 0 * Site 0 * Site 0) + Num (2#1) / (Site 0 * Site 0 * Site 0) + Num (1#1) / (Site 0 * Site 0 * Site 0);
    Num (-6#1) * (Var 23 + Var 26 / Num (2#1)) / (Site 0 * Site 0 * Site 0 * Site 0) + Num (2#1) / (Site 0 * Site 0 * Site 0) + Num (1#1) / (Site 0 * Site 0 * Site 0);
    Num (-6#1) * (Var 23 + Var 26 / Num (2#1)) / (Site 0 * Site 0 * Site 0 * Site 0) + Num (2#1) / (Site 0 * Site 0 * Site 0) + Num (2#1) / (Site 0 * Site 0 * Site 0) + Num (1#1) / (Site 0 * Site 0 * Site 0);
    Num (-6#1) * (Var 23 + Var 26 / Num (2#1)) / (Site 0 * Site 0 * Site 0 * Site 0) + Num (2#1) / (Site 0 * Site 0 * Site 0) + Num (1#1) / (Site 0 * Site 0 * Site 0);
    Num (-6#1) * (Var 23 + Var 26 / Num (2#1)) / (Site 0 * Site 0 * Site 0 * Site 0) + Num (2#1) / (Site 0 * Site 0 * Site 0) + Num (1#1) / (Site 0 * Site 0 * Site 0);
    Num (-6#1) * (Var 23 + Var 26 / Num (2#1)) / (Site 0 * Site 0 * Site 0 * Site 0) + Num (2#1) / (Site 0 * Site 0 * Site 0) + Num (1#1) / (Site 0 * Site 0 * Site 0) + Num (1#1) / (Site 0 * Site 0 * Site 0)]];
    [[Num (-6#1) * (Var 23 + Var 26 / Num (2#1)) / (Site 0 * Site 0 * Site 0 * Site 0);
    Num (-6#1) * (Var 23 + Var 26 / Num (2#1)) / (Site 0 * Site 0 * Site 0 * Site 0);
    Num (-6#1) * (Var 23 + Var 26 / Num (2#1)) / (Site 0 * Site 0 * Site 0 * Site 0);
    Num (-6#1) * (Var 23 + Var 26 / Num (2#1)) / (Site 0 * Site 0 * Site 0 * Site 0) + Num (2#1) / (Site 0 * Site 0 * Site 0);
    Num (-6#1) * (Var 23 + Var 26 / Num (2#1)) / (Site 0 * Site 0 * Site 0 * Site 0);
    Num (-6#1) * (Var 23 + Var 26 / Num (2#1)) / (Site 0 * Site 0 * Site 0 * Site 0);
    Num (-6#1) * (Var 23 + Var 26 / Num (2#1)) / (Site 0 * Site 0 * Site 0 * Site 0) + Num (1#1) / (Site 0 * Site 0 * Site 0)];
    [Num (-6#1) * (Var 23 + Var 26 / Num (2#1)) / (Site 0 * Site 0 * Site 0 * Site 0);
    Num (-6#1) * (Var 23 + Var 26 / Num (2#1)) / (Site 0 * Site 0 * Site 0 * Site 0);
    Num (-6#1) * (Var 23 + Var 26 / Num (2#1)) / (Site 0 * Site 0 * Site 0 * Site 0);
    Num (-6#1) * (Var 23 + Var 26 / Num (2#1)) / (Site 0 * Site 0 * Site 0 * Site 0) + Num (2#1) / (Site 0 * Site 0 * Site 0);
    Num (-6#1) * (Var 23 + Var 26 / Num (2#1)) / (Site 0 * Site 0 * Site 0 * Site 0);
    Num (-6#1) * (Var 23 + Var 26 / Num (2#1)) / (Site 0 * Site 0 * Site 0 * Site 0);
    Num (-6#1) * (Var 23 + Var 26 / Num (2#1)) / (Site 0 * Site 0 * Site 0 * Site 0) + Num (1#1) / (Site 0 * Site 0 * Site 0)];
    [Num (-6#1) * (Var 23 + Var 26 / Num (2#1)) / (Site 0 * Site 0 * Site 0 * Site 0);
    Num (-6#1) * (Var 23 + Var 26 / Num (2#1)) / (Site 0 * Site 0 * Site 0 * Site 0);
    Num (-6#1) * (Var 23 + Var 26 / Num (2#1)) / (Site 0 * Site 0 * Site 0 * Site 0);
    Num (-6#1) * (Var 23 + Var 26 / Num (2#1)) / (Site 0 * Site 0 * Site 0 * Site 0) + Num (2#1) / (Site 0 * Site 0 * Site 0);
    Num (-6#1) * (Var 23 + Var 26 / Num (2#1)) / (Site 0 * Site 0 * Site 0 * Site 0);
    Num (-6#1) * (Var 23 + Var 26 / Num (2#1)) / (Site 0 * Site 0 * Site 0 * Site 0);
    Num (-6#1) * (Var 23 + Var 26 / Num (2#1)) / (Site 0 * Site 0 * Site 0 * Site 0) + Num (1#1) / (Site 0 * Site 0 * Site 0)];
    [Num (-6#1) * (Var 23 + Var 26 / Num (2#1)) / (Site 0 * Site 0 * Site 0 * Site 0) + Num (2#1) / (Site 0 * Site 0 * Site 0);
    Num (-6#1) * (Var 23 + Var 26 / Num (2#1)) / (Site 0 * Site 0 * Site 0 * Site 0) + Num (2#1) / (Site 0 * Site 0 * Site 0);
    Num (-6#1) * (Var 23 + Var 26 / Num (2#1)) / (Site 0 * Site 0 * Site 0 * Site 0) + Num (2#1) / (Site 0 * Site 0 * Site 0);
    Num (-6#1) * (Var 23 + Var 26 / Num (2#1)) / (Site 0 * Site 0 * Site 0 * Site 0) + Num (2#1) / (Site 0 * Site 0 * Site 0) + Num (2#1) / (Site 0 * Site 0 * Site 0);
    Num (-6#1) * (Var 23 + Var 26 / Num (2#1)) / (Site 0 * Site 0 * Site 0 * Site 0) + Num (2#1) / (Site 0 * Site 0 * Site 0);
    Num (-6#1) * (Var 23 + Var 26 / Num (2#1)) / (Site 0 * Site 0 * Site 0 * Site 0) + Num (2#1) / (Site 0 * Site 0 * Site 0);
    Num (-6#1) * (Var 23 + Var 26 / Num (2#1)) / (Site 0 * Site 0 * Site 0 * Site 0) + Num (2#1) / (Site 0 * Site 0 * Site 0) + Num (1#1) / (Site 0 * Site 0 * Site 0)];
    [Num (-6#1) * (Var 23 + Var 26 / Num (2#1)) / (Site 0 * Site 0 * Site 0 * Site 0);
    Num (-6#1) * (Var 23 + Var 26 / Num (2#1)) / (Site 0 * Site 0 * Site 0 * Site 0);
    Num (-6#1) * (Var 23 + Var 26 / Num (2#1)) / (Site 0 * Site 0 * Site 0 * Site 0);
    Num (-6#1) * (Var 23 + Var 26 / Num (2#1)) / (Site 0 * Site 0 * Site 0 * Site 0) + Num (2#1) / (Site 0 * Site 0 * Site 0);
    Num (-6#1) * (Var 23 + Var 26 / Num (2#1)) / (Site 0 * Site 0 * Site 0 * Site 0);
    Num (-6#1) * (Var 23 + Var 26 / Num (2#1)) / (Site 0 * Site 0 * Site 0 * Site 0);
    Num (-6#1) * (Var 23 + Var 26 / Num (2#1)) / (Site 0 * Site 0 * Site 0 * Site 0) + Num (1#1) / (Site 0 * Site 0 * Site 0)];
    [Num (-6#1) * (Var 23 + Var 26 / Num (2#1)) / (Site 0 * Site 0 * Site 0 * Site 0);
    Num (-6#1) * (Var 23 + Var 26 / Num (2#1)) / (Site 0 * Site 0 * Site 0 * Site 0);
    Num (-6#1) * (Var 23 + Var 26 / Num (2#1)) / (Site 0 * Site 0 * Site 0 * Site 0);
    Num (-6#1) * (Var 23 + Var 26 / Num (2#1)) / (Site 0 * Site 0 * Site 0 * Site 0) + Num (2#1) / (Site 0 * Site 0 * Site 0);
    Num (-6#1) * (Var 23 + Var 26 / Num (2#1)) / (Site 0 * Site 0 * Site 0 * Site 0);
    Num (-6#1) * (Var 23 + Var 26 / Num (2#1)) / (Site 0 * Site 0 * Site 0 * Site 0);
    Num (-6#1) * (Var 23 + Var 26 / Num (2#1)) / (Site 0 * Site 0 * Site 0 * Site 0) + Num (1#1) / (Site 0 * Site 0 * Site 0)];
    [Num (-6#1) * (Var 23 + Var 26 / Num (2#1)) / (Site 0 * Site 0 * Site 0 * Site 0) + Num (1#1) / (Site 0 * Site 0 * Site 0);
    Num (-6#1) * (Var 23 + Var 26 / Num (2#1)) / (Site 0 * Site 0 * Site 0 * Site 0) + Num (1#1) / (Site 0 * Site 0 * Site 0);
    Num (-6#1) * (Var 23 + Var 26 / Num (2#1)) / (Site 0 * Site 0 * Site 0 * Site 0) + Num (1#1) / (Site 0 * Site 0 * Site 0);
    Num (-6#1) * (Var 23 + Var 26 / Num (2#1)) / (Site 0 * Site 0 * Site 0 * Site 0) + Num (2#1) / (Site 0 * Site 0 * Site 0) + Num (1#1) / (Site 0 * Site 0 * Site 0);
    Num (-6#1) * (Var 23 + Var 26 / Num (2#1)) / (Site 0 * Site 0 * Site 0 * Site 0) + Num (1#1) / (Site 0 * Site 0 * Site 0);
    Num (-6#1) * (Var 23 + Var 26 / Num (2#1)) / (Site 0 * Site 0 * Site 0 * Site 0) + Num (1#1) / (Site 0 * Site 0 * Site 0);
    Num (-6#1) * (Var 23 + Var 26 / Num (2#1)) / (Site 0 * Site 0 * Site 0 * Site 0) + Num (1#1) / (Site 0 * Site 0 * Site 0) + Num (1#1) / (Site 0 * Site 0 * Site 0)]];
    [[Num (-6#1) * (Var 23 + Var 26 / Num (2#1)) / (Site 0 * Site 0 * Site 0 * Site 0);
    Num (-6#1) * (Var 23 + Var 26 / Num (2#1)) / (Site 0 * Site 0 * Site 0 * Site 0);
    Num (-6#1) * (Var 23 + Var 26 / Num (2#1)) / (Site 0 * Site 0 * Site 0 * Site 0);
    Num (-6#1) * (Var 23 + Var 26 / Num (2#1)) / (Site 0 * Site 0 * Site 0 * Site 0) + Num (2#1) / (Site 0 * Site 0 * Site 0);
    Num (-6#1) * (Var 23 + Var 26 / Num (2#1)) / (Site 0 * Site 0 * Site 0 * Site 0);
    Num (-6#1) * (Var 23 + Var 26 / Num (2#1)) / (Site 0 * Site 0 * Site 0 * Site 0);
    Num (-6#1) * (Var 23 + Var 26 / Num (2#1)) / (Site 0 * Site 0 * Site 0 * Site 0) + Num (1#1) / (Site 0 * Site 0 * Site 0)];
    [Num (-6#1) * (Var 23 + Var 26 / Num (2#1)) / (Site 0 * Site 0 * Site 0 * Site 0);
    Num (-6#1) * (Var 23 + Var 26 / Num (2#1)) / (Site 0 * Site 0 * Site 0 * Site 0);
    Num (-6#1) * (Var 23 + Var 26 / Num (2#1)) / (Site 0 * Site 0 * Site 0 * Site 0);
    Num (-6#1) * (Var 23 + Var 26 / Num (2#1)) / (Site 0 * Site 0 * Site 0 * Site 0) + Num (2#1) / (Site 0 * Site 0 * Site 0);
    Num (-6#1) * (Var 23 + Var 26 / Num (2#1)) / (Site 0 * Site 0 * Site 0 * Site 0);
    Num (-6#1) * (Var 23 + Var 26 / Num (2#1)) / (Site 0 * Site 0 * Site 0 * Site 0);
    Num (-6#1) * (Var 23 + Var 26 / Num (2#1)) / (Site 0 * Site 0 * Site 0 * Site 0) + Num (1#1) / (Site 0 * Site 0 * Site 0)];
    [Num (-6#1) * (Var 23 + Var 26 / Num (2#1)) / (Site 0 * Site 0 * Site 0 * Site 0);
    Num (-6#1) * (Var 23 + Var 26 / Num (2#1)) / (Site 0 * Site 0 * Site 0 * Site 0);
    Num (-6#1) * (Var 23 + Var 26 / Num (2#1)) / (Site 0 * Site 0 * Site 0 * Site 0);
    Num (-6#1) * (Var 23 + Var 26 / Num (2#1)) / (Site 0 * Site 0 * Site 0 * Site 0) + Num (2#1) / (Site 0 * Site 0 * Site 0);
    Num (-6#1) * (Var 23 + Var 26 / Num (2#1)) / (Site 0 * Site 0 * Site 0 * Site 0);
    Num (-6#1) * (Var 23 + Var 26 / Num (2#1)) / (Site 0 * Site 0 * Site 0 * Site 0);
    Num (-6#1) * (Var 23 + Var 26 / Num (2#1)) / (Site 0 * Site 0 * Site 0 * Site 0) + Num (1#1) / (Site 0 * Site 0 * Site 0)];
    [Num (-6#1) * (Var 23 + Var 26 / Num (2#1)) / (Site 0 * Site 0 * Site 0 * Site 0) + Num (2#1) / (Site 0 * Site 0 * Site 0);
    Num (-6#1) * (Var 23 + Var 26 / Num (2#1)) / (Site 0 * Site 0 * Site 0 * Site 0) + Num (2#1) / (Site 0 * Site 0 * Site 0);
    Num (-6#1) * (Var 23 + Var 26 / Num (2#1)) / (Site 0 * Site 0 * Site 0 * Site 0) + Num (2#1) / (Site 0 * Site 0 * Site 0);
    Num (-6#1) * (Var 23 + Var 26 / Num (2#1)) / (Site 0 * Site 0 * Site 0 * Site 0) + Num (2#1) / (Site 0 * Site 0 * Site 0) + Num (2#1) / (Site 0 * Site 0 * Site 0);
    Num (-6#1) * (Var 23 + Var 26 / Num (2#1)) / (Site 0 * Site 0 * Site 0 * Site 0) + Num (2#1) / (Site 0 * Site 0 * Site 0);
    Num (-6#1) * (Var 23 + Var 26 / Num (2#1)) / (Site 0 * Site 0 * Site 0 * Site 0) + Num (2#1) / (Site 0 * Site 0 * Site 0);
    Num (-6#1) * (Var 23 + Var 26 / Num (2#1)) / (Site 0 * Site 0 * Site 0 * Site 0) + Num (2#1) / (Site 0 * Site 0 * Site 0) + Num (1#1) / (Site 0 * Site 0 * Site 0)];
    [Num (-6#1) * (Var 23 + Var 26 / Num (2#1)) / (Site 0 * Site 0 * Site 0 * Site 0);
    Num (-6#1) * (Var 23 + Var 26 / Num (2#1)) / (Site 0 * Site 0 * Site 0 * Site 0);
    Num (-6#1) * (Var 23 + Var 26 / Num (2#1)) / (Site 0 * Site 0 * Site 0 * Site 0);
    Num (-6#1) * (Var 23 + Var 26 / Num (2#1)) / (Site 0 * Site 0 * Site 0 * Site 0) + Num (2#1) / (Site 0 * Site 0 * Site 0);
    Num (-6#1) * (Var 23 + Var 26 / Num (2#1)) / (Site 0 * Site 0 * Site 0 * Site 0);
    Num (-6#1) * (Var 23 + Var 26 / Num (2#1)) / (Site 0 * Site 0 * Site 0 * Site 0);
    Num (-6#1) * (Var 23 + Var 26 / Num (2#1)) / (Site 0 * Site 0 * Site 0 * Site 0) + Num (1#1) / (Site 0 * Site 0 * Site 0)];
    [Num (-6#1) * (Var 23 + Var 26 / Num (2#1)) / (Site 0 * Site 0 * Site 0 * Site 0);
    Num (-6#1) * (Var 23 + Var 26 / Num (2#1)) / (Site 0 * Site 0 * Site 0 * Site 0);
    Num (-6#1) * (Var 23 + Var 26 / Num (2#1)) / (Site 0 * Site 0 * Site 0 * Site 0);
    Num (-6#1) * (Var 23 + Var 26 / Num (2#1)) / (Site 0 * Site 0 * Site 0 * Site 0) + Num (2#1) / (Site 0 * Site 0 * Site 0);
    Num (-6#1) * (Var 23 + Var 26 / Num (2#1)) / (Site 0 * Site 0 * Site 0 * Site 0);
    Num (-6#1) * (Var 23 + Var 26 / Num (2#1)) / (Site 0 * Site 0 * Site 0 * Site 0);
    Num (-6#1) * (Var 23 + Var 26 / Num (2#1)) / (Site 0 * Site 0 * Site 0 * Site 0) + Num (1#1) / (Site 0 * Site 0 * Site 0)];
    [Num (-6#1) * (Var 23 + Var 26 / Num (2#1)) / (Site 0 * Site 0 * Site 0 * Site 0) + Num (1#1) / (Site 0 * Site 0 * Site 0);
    Num (-6#1) * (Var 23 + Var 26 / Num (2#1)) / (Site 0 * Site 0 * Site 0 * Site 0) + Num (1#1) / (Site 0 * Site 0 * Site 0);
    Num (-6#1) * (Var 23 + Var 26 / Num (2#1)) / (Site 0 * Site 0 * Site 0 * Site 0) + Num (1#1) / (Site 0 * Site 0 * Site 0);
    Num (-6#1) * (Var 23 + Var 26 / Num (2#1)) / (Site 0 * Site 0 * Site 0 * Site 0) + Num (2#1) / (Site 0 * Site 0 * Site 0) + Num (1#1) / (Site 0 * Site 0 * Site 0);
    Num (-6#1) * (Var 23 + Var 26 / Num (2#1)) / (Site 0 * Site 0 * Site 0 * Site 0) + Num (1#1) / (Site 0 * Site 0 * Site 0);
    Num (-6#1) * (Var 23 + Var 26 / Num (2#1)) / (Site 0 * Site 0 * Site 0 * Site 0) + Num (1#1) / (Site 0 * Site 0 * Site 0);
    Num (-6#1) * (Var 23 + Var 26 / Num (2#1)) / (Site 0 * Site 0 * Site 0 * Site 0) + Num (1#1) / (Site 0 * Site 0 * Site 0) + Num (1#1) / (Site 0 * Site 0 * Site 0)]];
    [[Num (-6#1) * (Var 23 + Var 26 / Num (2#1)) / (Site 0 * Site 0 * Site 0 * Site 0) + Num (1#1) / (Site 0 * Site 0 * Site 0);
    Num (-6#1) * (Var 23 + Var 26 / Num (2#1)) / (Site 0 * Site 0 * Site 0 * Site 0) + Num (1#1) / (Site 0 * Site 0 * Site 0);
    Num (-6#1) * (Var 23 + Var 26 / Num (2#1)) / (Site 0 * Site 0 * Site 0 * Site 0) + Num (1#1) / (Site 0 * Site 0 * Site 0);
    Num (-6#1) * (Var 23 + Var 26 / Num (2#1)) / (Site 0 * Site 0 * Site 0 * Site 0) + Num (2#1) / (Site 0 * Site 0 * Site 0) + Num (1#1) / (Site 0 * Site 0 * Site 0);
    Num (-6#1) * (Var 23 + Var 26 / Num (2#1)) / (Site 0 * Site 0 * Site 0 * Site 0) + Num (1#1) / (Site 0 * Site 0 * Site 0);
    Num (-6#1) * (Var 23 + Var 26 / Num (2#1)) / (Site 0 * Site 0 * Site 0 * Site 0) + Num (1#1) / (Site 0 * Site 0 * Site 0);
    Num (-6#1) * (Var 23 + Var 26 / Num (2#1)) / (Site 0 * Site 0 * Site 0 * Site 0) + Num (1#1) / (Site 0 * Site 0 * Site 0) + Num (1#1) / (Site 0 * Site 0 * Site 0)];
    [Num (-6#1) * (Var 23 + Var 26 / Num (2#1)) / (Site 0 * Site 0 * Site 0 * Site 0) + Num (1#1) / (Site 0 * Site 0 * Site 0);
    Num (-6#1) * (Var 23 + Var 26 / Num (2#1)) / (Site 0 * Site 0 * Site 0 * Site 0) + Num (1#1) / (Site 0 * Site 0 * Site 0);
    Num (-6#1) * (Var 23 + Var 26 / Num (2#1)) / (Site 0 * Site 0 * Site 0 * Site 0) + Num (1#1) / (Site 0 * Site 0 * Site 0);
    Num (-6#1) * (Var 23 + Var 26 / Num (2#1)) / (Site 0 * Site 0 * Site 0 * Site 0) + Num (2#1) / (Site 0 * Site 0 * Site 0) + Num (1#1) / (Site 0 * Site 0 * Site 0);
    Num (-6#1) * (Var 23 + Var 26 / Num (2#1)) / (Site 0 * Site 0 * Site 0 * Site 0) + Num (1#1) / (Site 0 * Site 0 * Site 0);
    Num (-6#1) * (Var 23 + Var 26 / Num (2#1)) / (Site 0 * Site 0 * Site 0 * Site 0) + Num (1#1) / (Site 0 * Site 0 * Site 0);
    Num (-6#1) * (Var 23 + Var 26 / Num (2#1)) / (Site 0 * Site 0 * Site 0 * Site 0) + Num (1#1) / (Site 0 * Site 0 * Site 0) + Num (1#1) / (Site 0 * Site 0 * Site 0)];
    [Num (-6#1) * (Var 23 + Var 26 / Num (2#1)) / (Site 0 * Site 0 * Site 0 * Site 0) + Num (1#1) / (Site 0 * Site 0 * Site 0);
    Num (-6#1) * (Var 23 + Var 26 / Num (2#1)) / (Site 0 * Site 0 * Site 0 * Site 0) + Num (1#1) / (Site 0 * Site 0 * Site 0);
    Num (-6#1) * (Var 23 + Var 26 / Num (2#1)) / (Site 0 * Site 0 * Site 0 * Site 0) + Num (1#1) / (Site 0 * Site 0 * Site 0);
    Num (-6#1) * (Var 23 + Var 26 / Num (2#1)) / (Site 0 * Site 0 * Site 0 * Site 0) + Num (2#1) / (Site 0 * Site 0 * Site 0) + Num (1#1) / (Site 0 * Site 0 * Site 0);
    Num (-6#1) * (Var 23 + Var 26 / Num (2#1)) / (Site 0 * Site 0 * Site 0 * Site 0) + Num (1#1) / (Site 0 * Site 0 * Site 0);
    Num (-6#1) * (Var 23 + Var 26 / Num (2#1)) / (Site 0 * Site 0 * Site 0 * Site 0) + Num (1#1) / (Site 0 * Site 0 * Site 0);
    Num (-6#1) * (Var 23 + Var 26 / Num (2#1)) / (Site 0 * Site 0 * Site 0 * Site 0) + Num (1#1) / (Site 0 * Site 0 * Site 0) + Num (1#1) / (Site 0 * Site 0 * Site 0)];
    [Num (-6#1) * (Var 23 + Var 26 / Num (2#1)) / (Site 0 * Site 0 * Site 0 * Site 0) + Num (2#1) / (Site 0 * Site 0 * Site 0) + Num (1#1) / (Site 0 * Site 0 * Site 0);
    Num (-6#1) * (Var 23 + Var 26 / Num (2#1)) / (Site 0 * Site 0 * Site 0 * Site 0) + Num (2#1) / (Site 0 * Site 0 * Site 0) + Num (1#1) / (Site 0 * Site 0 * Site 0);
    Num (-6#1) * (Var 23 + Var 26 / Num (2#1)) / (Site 0 * Site 0 * Site 0 * Site 0) + Num (2#1) / (Site 0 * Site 0 * Site 0) + Num (1#1) / (Site 0 * Site 0 * Site 0);
    Num (-6#1) * (Var 23 + Var 26 / Num (2#1)) / (Site 0 * Site 0 * Site 0 * Site 0) + Num (2#1) / (Site 0 * Site 0 * Site 0) + Num (2#1) / (Site 0 * Site 0 * Site 0) + Num (1#1) / (Site 0 * Site 0 * Site 0);
    Num (-6#1) * (Var 23 + Var 26 / Num (2#1)) / (Site 0 * Site 0 * Site 0 * Site 0) + Num (2#1) / (Site 0 * Site 0 * Site 0) + Num (1#1) / (Site 0 * Site 0 * Site 0);
    Num (-6#1) * (Var 23 + Var 26 / Num (2#1)) / (Site 0 * Site 0 * Site 0 * Site 0) + Num (2#1) / (Site 0 * Site 0 * Site 0) + Num (1#1) / (Site 0 * Site 0 * Site 0);
    Num (-6#1) * (Var 23 + Var 26 / Num (2#1)) / (Site 0 * Site 0 * Site 0 * Site 0) + Num (2#1) / (Site 0 * Site 0 * Site 0) + Num (1#1) / (Site 0 * Site 0 * Site 0) + Num (1#1) / (Site 0 * Site 0 * Site 0)];
    [Num (-6#1) * (Var 23 + Var 26 / Num (2#1)) / (Site 0 * Site 0 * Site 0 * Site 0) + Num (1#1) / (Site 0 * Site 0 * Site 0);
    Num (-6#1) * (Var 23 + Var 26 / Num (2#1)) / (Site 0 * Site 0 * Site 0 * Site 0) + Num (1#1) / (Site 0 * Site 0 * Site 0);
    Num (-6#1) * (Var 23 + Var 26 / Num (2#1)) / (Site 0 * Site 0 * Site 0 * Site 0) + Num (1#1) / (Site 0 * Site 0 * Site 0);
    Num (-6#1) * (Var 23 + Var 26 / Num (2#1)) / (Site 0 * Site 0 * Site 0 * Site 0) + Num (2#1) / (Site 0 * Site 0 * Site 0) + Num (1#1) / (Site 0 * Site 0 * Site 0);
    Num (-6#1) * (Var 23 + Var 26 / Num (2#1)) / (Site 0 * Site 0 * Site 0 * Site 0) + Num (1#1) / (Site 0 * Site 0 * Site 0);
    Num (-6#1) * (Var 23 + Var 26 / Num (2#1)) / (Site 0 * Site 0 * Site 0 * Site 0) + Num (1#1) / (Site 0 * Site 0 * Site 0);
    Num (-6#1) * (Var 23 + Var 26 / Num (2#1)) / (Site 0 * Site 0 * Site 0 * Site 0) + Num (1#1) / (Site 0 * Site 0 * Site 0) + Num (1#1) / (Site 0 * Site 0 * Site 0)];
    [Num (-6#1) * (Var 23 + Var 26 / Num (2#1)) / (Site 0 * Site 0 * Site 0 * Site 0) + Num (1#1) / (Site 0 * Site 0 * Site 0);
    Num (-6#1) * (Var 23 + Var 26 / Num (2#1)) / (Site 0 * Site 0 * Site 0 * Site 0) + Num (1#1) / (Site 0 * Site 0 * Site 0);
    Num (-6#1) * (Var 23 + Var 26 / Num (2#1)) / (Site 0 * Site 0 * Site 0 * Site 0) + Num (1#1) / (Site 0 * Site 0 * Site 0);
    Num (-6#1) * (Var 23 + Var 26 / Num (2#1)) / (Site 0 * Site 0 * Site 0 * Site 0) + Num (2#1) / (Site 0 * Site 0 * Site 0) + Num (1#1) / (Site 0 * Site 0 * Site 0);
    Num (-6#1) * (Var 23 + Var 26 / Num (2#1)) / (Site 0 * Site 0 * Site 0 * Site 0) + Num (1#1) / (Site 0 * Site 0 * Site 0);
    Num (-6#1) * (Var 23 + Var 26 / Num (2#1)) / (Site 0 * Site 0 * Site 0 * Site 0) + Num (1#1) / (Site 0 * Site 0 * Site 0);
    Num (-6#1) * (Var 23 + Var 26 / Num (2#1)) / (Site 0 * Site 0 * Site 0 * Site 0) + Num (1#1) / (Site 0 * Site 0 * Site 0) + Num (1#1) / (Site 0 * Site 0 * Site 0)];
    [Num (-6#1) * (Var 23 + Var 26 / Num (2#1)) / (Site 0 * Site 0 * Site 0 * Site 0) + Num (1#1) / (Site 0 * Site 0 * Site 0) + Num (1#1) / (Site 0 * Site 0 * Site 0);
    Num (-6#1) * (Var 23 + Var 26 / Num (2#1)) / (Site 0 * Site 0 * Site 0 * Site 0) + Num (1#1) / (Site 0 * Site 0 * Site 0) + Num (1#1) / (Site 0 * Site 0 * Site 0);
    Num (-6#1) * (Var 23 + Var 26 / Num (2#1)) / (Site 0 * Site 0 * Site 0 * Site 0) + Num (1#1) / (Site 0 * Site 0 * Site 0) + Num (1#1) / (Site 0 * Site 0 * Site 0);
    Num (-6#1) * (Var 23 + Var 26 / Num (2#1)) / (Site 0 * Site 0 * Site 0 * Site 0) + Num (2#1) / (Site 0 * Site 0 * Site 0) + Num (1#1) / (Site 0 * Site 0 * Site 0) + Num (1#1) / (Site 0 * Site 0 * Site 0);
    Num (-6#1) * (Var 23 + Var 26 / Num (2#1)) / (Site 0 * Site 0 * Site 0 * Site 0) + Num (1#1) / (Site 0 * Site 0 * Site 0) + Num (1#1) / (Site 0 * Site 0 * Site 0);
    Num (-6#1) * (Var 23 + Var 26 / Num (2#1)) / (Site 0 * Site 0 * Site 0 * Site 0) + Num (1#1) / (Site 0 * Site 0 * Site 0) + Num (1#1) / (Site 0 * Site 0 * Site 0);
    Num (-6#1) * (Var 23 + Var 26 / Num (2#1)) / (Site 0 * Site 0 * Site 0 * Site 0) + Num (1#1) / (Site 0 * Site 0 * Site 0) + Num (1#1) / (Site 0 * Site 0 * Site 0) + Num (1#1) / (Site 0 * Site 0 * Site 0)]]];
    [[[Num (-6#1) * (Var 24 - Var 26 / Num (2#1)) / (Site 0 * Site 0 * Site 0 * Site 0);
    Num (-6#1) * (Var 24 - Var 26 / Num (2#1)) / (Site 0 * Site 0 * Site 0 * Site 0);
    Num (-6#1) * (Var 24 - Var 26 / Num (2#1)) / (Site 0 * Site 0 * Site 0 * Site 0);
    Num (-6#1) * (Var 24 - Var 26 / Num (2#1)) / (Site 0 * Site 0 * Site 0 * Site 0);
    Num (-6#1) * (Var 24 - Var 26 / Num (2#1)) / (Site 0 * Site 0 * Site 0 * Site 0) + Num (2#1) / (Site 0 * Site 0 * Site 0);
    Num (-6#1) * (Var 24 - Var 26 / Num (2#1)) / (Site 0 * Site 0 * Site 0 * Site 0);
    Num (-6#1) * (Var 24 - Var 26 / Num (2#1)) / (Site 0 * Site 0 * Site 0 * Site 0) - Num (1#1) / (Site 0 * Site 0 * Site 0)];
    [Num (-6#1) * (Var 24 - Var 26 / Num (2#1)) / (Site 0 * Site 0 * Site 0 * Site 0);
    Num (-6#1) * (Var 24 - Var 26 / Num (2#1)) / (Site 0 * Site 0 * Site 0 * Site 0);
    Num (-6#1) * (Var 24 - Var 26 / Num (2#1)) / (Site 0 * Site 0 * Site 0 * Site 0);
    Num (-6#1) * (Var 24 - Var 26 / Num (2#1)) / (Site 0 * Site 0 * Site 0 * Site 0);
    Num (-6#1) * (Var 24 - Var 26 / Num (2#1)) / (Site 0 * Site 0 * Site 0 * Site 0) + Num (2#1) / (Site 0 * Site 0 * Site 0);
    Num (-6#1) * (Var 24 - Var 26 / Num (2#1)) / (Site 0 * Site 0 * Site 0 * Site 0);
    Num (-6#1) * (Var 24 - Var 26 / Num (2#1)) / (Site 0 * Site 0 * Site 0 * Site 0) - Num (1#1) / (Site 0 * Site 0 * Site 0)];
    [Num (-6#1) * (Var 24 - Var 26 / Num (2#1)) / (Site 0 * Site 0 * Site 0 * Site 0);
    Num (-6#1) * (Var 24 - Var 26 / Num (2#1)) / (Site 0 * Site 0 * Site 0 * Site 0);
    Num (-6#1) * (Var 24 - Var 26 / Num (2#1)) / (Site 0 * Site 0 * Site 0 * Site 0);
    Num (-6#1) * (Var 24 - Var 26 / Num (2#1)) / (Site 0 * Site 0 * Site 0 * Site 0);
    Num (-6#1) * (Var 24 - Var 26 / Num (2#1)) / (Site 0 * Site 0 * Site 0 * Site 0) + Num (2#1) / (Site 0 * Site 0 * Site 0);
    Num (-6#1) * (Var 24 - Var 26 / Num (2#1)) / (Site 0 * Site 0 * Site 0 * Site 0);
    Num (-6#1) * (Var 24 - Var 26 / Num (2#1)) / (Site 0 * Site 0 * Site 0 * Site 0) - Num (1#1) / (Site 0 * Site 0 * Site 0)];
    [Num (-6#1) * (Var 24 - Var 26 / Num (2#1)) / (Site 0 * Site 0 * Site 0 * Site 0);
    Num (-6#1) * (Var 24 - Var 26 / Num (2#1)) / (Site 0 * Site 0 * Site 0 * Site 0);
    Num (-6#1) * (Var 24 - Var 26 / Num (2#1)) / (Site 0 * Site 0 * Site 0 * Site 0);
    Num (-6#1) * (Var 24 - Var 26 / Num (2#1)) / (Site 0 * Site 0 * Site 0 * Site 0);
    Num (-6#1) * (Var 24 - Var 26 / Num (2#1)) / (Site 0 * Site 0 * Site 0 * Site 0) + Num (2#1) / (Site 0 * Site 0 * Site 0);
    Num (-6#1) * (Var 24 - Var 26 / Num (2#1)) / (Site 0 * Site 0 * Site 0 * Site 0);
    Num (-6#1) * (Var 24 - Var 26 / Num (2#1)) / (Site 0 * Site 0 * Site 0 * Site 0) - Num (1#1) / (Site 0 * Site 0 * Site 0)];
    [Num (-6#1) * (Var 24 - Var 26 / Num (2#1)) / (Site 0 * Site 0 * Site 0 * Site 0) + Num (2#1) / (Site 0 * Site 0 * Site 0);
    Num (-6#1) * (Var 24 - Var 26 / Num (2#1)) / (Site 0 * Site 0 * Site 0 * Site 0) + Num (2#1) / (Site 0 * Site 0 * Site 0);
    Num (-6#1) * (Var 24 - Var 26 / Num (2#1)) / (Site 0 * Site 0 * Site 0 * Site 0) + Num (2#1) / (Site 0 * Site 0 * Site 0);
    Num (-6#1) * (Var 24 - Var 26 / Num (2#1)) / (Site 0 * Site 0 * Site 0 * Site 0) + Num (2#1) / (Site 0 * Site 0 * Site 0);
    Num (-6#1) * (Var 24 - Var 26 / Num (2#1)) / (Site 0 * Site 0 * Site 0 * Site 0) + Num (2#1) / (Site 0 * Site 0 * Site 0) + Num (2#1) / (Site 0 * Site 0 * Site 0);
    Num (-6#1) * (Var 24 - Var 26 / Num (2#1)) / (Site 0 * Site 0 * Site 0 * Site 0) + Num (2#1) / (Site 0 * Site 0 * Site 0);
    Num (-6#1) * (Var 24 - Var 26 / Num (2#1)) / (Site 0 * Site 0 * Site 0 * Site 0) + Num (2#1) / (Site 0 * Site 0 * Site 0) - Num (1#1) / (Site 0 * Site 0 * Site 0)];
    [Num (-6#1) * (Var 24 - Var 26 / Num (2#1)) / (Site 0 * Site 0 * Site 0 * Site 0);
    Num (-6#1) * (Var 24 - Var 26 / Num (2#1)) / (Site 0 * Site 0 * Site 0 * Site 0);
    Num (-6#1) * (Var 24 - Var 26 / Num (2#1)) / (Site 0 * Site 0 * Site 0 * Site 0);
    Num (-6#1) * (Var 24 - Var 26 / Num (2#1)) / (Site 0 * Site 0 * Site 0 * Site 0);
    Num (-6#1) * (Var 24 - Var 26 / Num (2#1)) / (Site 0 * Site 0 * Site 0 * Site 0) + Num (2#1) / (Site 0 * Site 0 * Site 0);
    Num (-6#1) * (Var 24 - Var 26 / Num (2#1)) / (Site 0 * Site 0 * Site 0 * Site 0);
    Num (-6#1) * (Var 24 - Var 26 / Num (2#1)) / (Site 0 * Site 0 * Site 0 * Site 0) - Num (1#1) / (Site 0 * Site 0 * Site 0)];
    [Num (-6#1) * (Var 24 - Var 26 / Num (2#1)) / (Site 0 * Site 0 * Site 0 * Site 0) - Num (1#1) / (Site 0 * Site 0 * Site 0);
    Num (-6#1) * (Var 24 - Var 26 / Num (2#1)) / (Site 0 * Site 0 * Site 0 * Site 0) - Num (1#1) / (Site 0 * Site 0 * Site 0);
    Num (-6#1) * (Var 24 - Var 26 / Num (2#1)) / (Site 0 * Site 0 * Site 0 * Site 0) - Num (1#1) / (Site 0 * Site 0 * Site 0);
    Num (-6#1) * (Var 24 - Var 26 / Num (2#1)) / (Site 0 * Site 0 * Site 0 * Site 0) - Num (1#1) / (Site 0 * Site 0 * Site 0);
    Num (-6#1) * (Var 24 - Var 26 / Num (2#1)) / (Site 0 * Site 0 * Site 0 * Site 0) + Num (2#1) / (Site 0 * Site 0 * Site 0) - Num (1#1) / (Site 0 * Site 0 * Site 0);
    Num (-6#1) * (Var 24 - Var 26 / Num (2#1)) / (Site 0 * Site 0 * Site 0 * Site 0) - Num (1#1) / (Site 0 * Site 0 * Site 0);
    Num (-6#1) * (Var 24 - Var 26 / Num (2#1)) / (Site 0 * Site 0 * Site 0 * Site 0) - Num (1#1) / (Site 0 * Site 0 * Site 0) - Num (1#1) / (Site 0 * Site 0 * Site 0)]];
    [[Num (-6#1) * (Var 24 - Var 26 / Num (2#1)) / (Site 0 * Site 0 * Site 0 * Site 0);
    Num (-6#1) * (Var 24 - Var 26 / Num (2#1)) / (Site 0 * Site 0 * Site 0 * Site 0);
    Num (-6#1) * (Var 24 - Var 26 / Num (2#1)) / (Site 0 * Site 0 * Site 0 * Site 0);
    Num (-6#1) * (Var 24 - Var 26 / Num (2#1)) / (Site 0 * Site 0 * Site 0 * Site 0);
    Num (-6#1) * (Var 24 - Var 26 / Num (2#1)) / (Site 0 * Site 0 * Site 0 * Site 0) + Num (2#1) / (Site 0 * Site 0 * Site 0);
    Num (-6#1) * (Var 24 - Var 26 / Num (2#1)) / (Site 0 * Site 0 * Site 0 * Site 0);
    Num (-6#1) * (Var 24 - Var 26 / Num (2#1)) / (Site 0 * Site 0 * Site 0 * Site 0) - Num (1#1) / (Site 0 * Site 0 * Site 0)];
    [Num (-6#1) * (Var 24 - Var 26 / Num (2#1)) / (Site 0 * Site 0 * Site 0 * Site 0);
    Num (-6#1) * (Var 24 - Var 26 / Num (2#1)) / (Site 0 * Site 0 * Site 0 * Site 0);
    Num (-6#1) * (Var 24 - Var 26 / Num (2#1)) / (Site 0 * Site 0 * Site 0 * Site 0);
    Num (-6#1) * (Var 24 - Var 26 / Num (2#1)) / (Site 0 * Site 0 * Site 0 * Site 0);
    Num (-6#1) * (Var 24 - Var 26 / Num (2#1)) / (Site 0 * Site 0 * Site 0 * Site 0) + Num (2#1) / (Site 0 * Site 0 * Site 0);
    Num (-6#1) * (Var 24 - Var 26 / Num (2#1)) / (Site 0 * Site 0 * Site 0 * Site 0);
    Num (-6#1) * (Var 24 - Var 26 / Num (2#1)) / (Site 0 * Site 0 * Site 0 * Site 0) - Num (1#1) / (Site 0 * Site 0 * Site 0)];
    [Num (-6#1) * (Var 24 - Var 26 / Num (2#1)) / (Site 0 * Site 0 * Site 0 * Site 0);
    Num (-6#1) * (Var 24 - Var 26 / Num (2#1)) / (Site 0 * Site 0 * Site 0 * Site 0);
    Num (-6#1) * (Var 24 - Var 26 / Num (2#1)) / (Site 0 * Site 0 * Site 0 * Site 0);
    Num (-6#1) * (Var 24 - Var 26 / Num (2#1)) / (Site 0 * Site 0 * Site 0 * Site 0);
    Num (-6#1) * (Var 24 - Var 26 / Num (2#1)) / (Site 0 * Site 0 * Site 0 * Site 0) + Num (2#1) / (Site 0 * Site 0 * Site 0);
    Num (-6#1) * (Var 24 - Var 26 / Num (2#1)) / (Site 0 * Site 0 * Site 0 * Site 0);
    Num (-6#1) * (Var 24 - Var 26 / Num (2#1)) / (Site 0 * Site 0 * Site 0 * Site 0) - Num (1#1) / (Site 0 * Site 0 * Site 0)];
    [Num (-6#1) * (Var 24 - Var 26 / Num (2#1)) / (Site 0 * Site 0 * Site 0 * Site 0);
    Num (-6#1) * (Var 24 - Var 26 / Num (2#1)) / (Site 0 * Site 0 * Site 0 * Site 0);
    Num (-6#1) * (Var 24 - Var 26 / Num (2#1)) / (Site 0 * Site 0 * Site 0 * Site 0);
    Num (-6#1) * (Var 24 - Var 26 / Num (2#1)) / (Site 0 * Site 0 * Site 0 * Site 0);
    Num (-6#1) * (Var 24 - Var 26 / Num (2#1)) / (Site 0 * Site 0 * Site 0 * Site 0) + Num (2#1) / (Site 0 * Site 0 * Site 0);
    Num (-6#1) * (Var 24 - Var 26 / Num (2#1)) / (Site 0 * Site 0 * Site 0 * Site 0);
    Num (-6#1) * (Var 24 - Var 26 / Num (2#1)) / (Site 0 * Site 0 * Site 0 * Site 0) - Num (1#1) / (Site 0 * Site 0 * Site 0)];
    [Num (-6#1) * (Var 24 - Var 26 / Num (2#1)) / (Site 0 * Site 0 * Site 0 * Site 0) + Num (2#1) / (Site 0 * Site 0 * Site 0);
    Num (-6#1) * (Var 24 - Var 26 / Num (2#1)) / (Site 0 * Site 0 * Site 0 * Site 0) + Num (2#1) / (Site 0 * Site 0 * Site 0);
    Num (-6#1) * (Var 24 - Var 26 / Num (2#1)) / (Site 0 * Site 0 * Site 0 * Site 0) + Num (2#1) / (Site 0 * Site 0 * Site 0);
    Num (-6#1) * (Var 24 - Var 26 / Num (2#1)) / (Site 0 * Site 0 * Site 0 * Site 0) + Num (2#1) / (Site 0 * Site 0 * Site 0);
    Num (-6#1) * (Var 24 - Var 26 / Num (2#1)) / (Site 0 * Site 0 * Site 0 * Site 0) + Num (2#1) / (Site 0 * Site 0 * Site 0) + Num (2#1) / (Site 0 * Site 0 * Site 0);
    Num (-6#1) * (Var 24 - Var 26 / Num (2#1)) / (Site 0 * Site 0 * Site 0 * Site 0) + Num (2#1) / (Site 0 * Site 0 * Site 0);
    Num (-6#1) * (Var 24 - Var 26 / Num (2#1)) / (Site 0 * Site 0 * Site 0 * Site 0) + Num (2#1) / (Site 0 * Site 0 * Site 0) - Num (1#1) / (Site 0 * Site 0 * Site 0)];
    [Num (-6#1) * (Var 24 - Var 26 / Num (2#1)) / (Site 0 * Site 0 * Site 0 * Site 0);
    Num (-6#1) * (Var 24 - Var 26 / Num (2#1)) / (Site 0 * Site 0 * Site 0 * Site 0);
    Num (-6#1) * (Var 24 - Var 26 / Num (2#1)) / (Site 0 * Site 0 * Site 0 * Site 0);
    Num (-6#1) * (Var 24 - Var 26 / Num (2#1)) / (Site 0 * Site 0 * Site 0 * Site 0);
    Num (-6#1) * (Var 24 - Var 26 / Num (2#1)) / (Site 0 * Site 0 * Site 0 * Site 0) + Num (2#1) / (Site 0 * Site 0 * Site 0);
    Num (-6#1) * (Var 24 - Var 26 / Num (2#1)) / (Site 0 * Site 0 * Site 0 * Site 0);
    Num (-6#1) * (Var 24 - Var 26 / Num (2#1)) / (Site 0 * Site 0 * Site 0 * Site 0) - Num (1#1) / (Site 0 * Site 0 * Site 0)];
    [Num (-6#1) * (Var 24 - Var 26 / Num (2#1)) / (Site 0 * Site 0 * Site 0 * Site 0) - Num (1#1) / (Site 0 * Site 0 * Site 0);
    Num (-6#1) * (Var 24 - Var 26 / Num (2#1)) / (Site 0 * Site 0 * Site 0 * Site 0) - Num (1#1) / (Site 0 * Site 0 * Site 0);
    Num (-6#1) * (Var 24 - Var 26 / Num (2#1)) / (Site 0 * Site 0 * Site 0 * Site 0) - Num (1#1) / (Site 0 * Site 0 * Site 0);
    Num (-6#1) * (Var 24 - Var 26 / Num (2#1)) / (Site 0 * Site 0 * Site 0 * Site 0) - Num (1#1) / (Site 0 * Site 0 * Site 0);
    Num (-6#1) * (Var 24 - Var 26 / Num (2#1)) / (Site 0 * Site 0 * Site 0 * Site 0) + Num (2#1) / (Site 0 * Site 0 * Site 0) - Num (1#1) / (Site 0 * Site 0 * Site 0);
    Num (-6#1) * (Var 24 - Var 26 / Num (2#1)) / (Site 0 * Site 0 * Site 0 * Site 0) - Num (1#1) / (Site 0 * Site 0 * Site 0);
    Num (-6#1) * (Var 24 - Var 26 / Num (2#1)) / (Site 0 * Site 0 * Site 0 * Site 0) - Num (1#1) / (Site 0 * Site 0 * Site 0) - Num (1#1) / (Site 0 * Site 0 * Site 0)]];
    [[Num (-6#1) * (Var 24 - Var 26 / Num (2#1)) / (Site 0 * Site 0 * Site 0 * Site 0);
    Num (-6#1) * (Var 24 - Var 26 / Num (2#1)) / (Site 0 * Site 0 * Site 0 * Site 0);
    Num (-6#1) * (Var 24 - Var 26 / Num (2#1)) / (Site 0 * Site 0 * Site 0 * Site 0);
    Num (-6#1) * (Var 24 - Var 26 / Num (2#1)) / (Site 0 * Site 0 * Site 0 * Site 0);
    Num (-6#1) * (Var 24 - Var 26 / Num (2#1)) / (Site 0 * Site 0 * Site 0 * Site 0) + Num (2#1) / (Site 0 * Site 0 * Site 0);
    Num (-6#1) * (Var 24 - Var 26 / Num (2#1)) / (Site 0 * Site 0 * Site 0 * Site 0);
    Num (-6#1) * (Var 24 - Var 26 / Num (2#1)) / (Site 0 * Site 0 * Site 0 * Site 0) - Num (1#1) / (Site 0 * Site 0 * Site 0)];
    [Num (-6#1) * (Var 24 - Var 26 / Num (2#1)) / (Site 0 * Site 0 * Site 0 * Site 0);
    Num (-6#1) * (Var 24 - Var 26 / Num (2#1)) / (Site 0 * Site 0 * Site 0 * Site 0);
    Num (-6#1) * (Var 24 - Var 26 / Num (2#1)) / (Site 0 * Site 0 * Site 0 * Site 0);
    Num (-6#1) * (Var 24 - Var 26 / Num (2#1)) / (Site 0 * Site 0 * Site 0 * Site 0);
    Num (-6#1) * (Var 24 - Var 26 / Num (2#1)) / (Site 0 * Site 0 * Site 0 * Site 0) + Num (2#1) / (Site 0 * Site 0 * Site 0);
    Num (-6#1) * (Var 24 - Var 26 / Num (2#1)) / (Site 0 * Site 0 * Site 0 * Site 0);
    Num (-6#1) * (Var 24 - Var 26 / Num (2#1)) / (Site 0 * Site 0 * Site 0 * Site 0) - Num (1#1) / (Site 0 * Site 0 * Site 0)];
    [Num (-6#1) * (Var 24 - Var 26 / Num (2#1)) / (Site 0 * Site 0 * Site 0 * Site 0);
    Num (-6#1) * (Var 24 - Var 26 / Num (2#1)) / (Site 0 * Site 0 * Site 0 * Site 0);
    Num (-6#1) * (Var 24 - Var 26 / Num (2#1)) / (Site 0 * Site 0 * Site 0 * Site 0);
    Num (-6#1) * (Var 24 - Var 26 / Num (2#1)) / (Site 0 * Site 0 * Site 0 * Site 0);
    Num (-6#1) * (Var 24 - Var 26 / Num (2#1)) / (Site 0 * Site 0 * Site 0 * Site 0) + Num (2#1) / (Site 0 * Site 0 * Site 0);
    Num (-6#1) * (Var 24 - Var 26 / Num (2#1)) / (Site 0 * Site 0 * Site 0 * Site 0);
    Num (-6#1) * (Var 24 - Var 26 / Num (2#1)) / (Site 0 * Site 0 * Site 0 * Site 0) - Num (1#1) / (Site 0 * Site 0 * Site 0)];
    [Num (-6#1) * (Var 24 - Var 26 / Num (2#1)) / (Site 0 * Site 0 * Site 0 * Site 0);
    Num (-6#1) * (Var 24 - Var 26 / Num (2#1)) / (Site 0 * Site 0 * Site 0 * Site 0);
    Num (-6#1) * (Var 24 - Var 26 / Num (2#1)) / (Site 0 * Site 0 * Site 0 * Site 0);
    Num (-6#1) * (Var 24 - Var 26 / Num (2#1)) / (Site 0 * Site 0 * Site 0 * Site 0);
    Num (-6#1) * (Var 24 - Var 26 / Num (2#1)) / (Site 0 * Site 0 * Site 0 * Site 0) + Num (2#1) / (Site 0 * Site 0 * Site 0);
    Num (-6#1) * (Var 24 - Var 26 / Num (2#1)) / (Site 0 * Site 0 * Site 0 * Site 0);
    Num (-6#1) * (Var 24 - Var 26 / Num (2#1)) / (Site 0 * Site 0 * Site 0 * Site 0) - Num (1#1) / (Site 0 * Site 0 * Site 0)];
    [Num (-6#1) * (Var 24 - Var 26 / Num (2#1)) / (Site 0 * Site 0 * Site 0 * Site 0) + Num (2#1) / (Site 0 * Site 0 * Site 0);
    Num (-6#1) * (Var 24 - Var 26 / Num (2#1)) / (Site 0 * Site 0 * Site 0 * Site 0) + Num (2#1) / (Site 0 * Site 0 * Site 0);
    Num (-6#1) * (Var 24 - Var 26 / Num (2#1)) / (Site 0 * Site 0 * Site 0 * Site 0) + Num (2#1) / (Site 0 * Site 0 * Site 0);
    Num (-6#1) * (Var 24 - Var 26 / Num (2#1)) / (Site 0 * Site 0 * Site 0 * Site 0) + Num (2#1) / (Site 0 * Site 0 * Site 0);
    Num (-6#1) * (Var 24 - Var 26 / Num (2#1)) / (Site 0 * Site 0 * Site 0 * Site 0) + Num (2#1) / (Site 0 * Site 0 * Site 0) + Num (2#1) / (Site 0 * Site 0 * Site 0);
    Num (-6#1) * (Var 24 - Var 26 / Num (2#1)) / (Site 0 * Site 0 * Site 0 * Site 0) + Num (2#1) / (Site 0 * Site 0 * Site 0);
    Num (-6#1) * (Var 24 - Var 26 / Num (2#1)) / (Site 0 * Site 0 * Site 0 * Site 0) + Num (2#1) / (Site 0 * Site 0 * Site 0) - Num (1#1) / (Site 0 * Site 0 * Site 0)];
    [Num (-6#1) * (Var 24 - Var 26 / Num (2#1)) / (Site 0 * Site 0 * Site 0 * Site 0);
    Num (-6#1) * (Var 24 - Var 26 / Num (2#1)) / (Site 0 * Site 0 * Site 0 * Site 0);
    Num (-6#1) * (Var 24 - Var 26 / Num (2#1)) / (Site 0 * Site 0 * Site 0 * Site 0);
    Num (-6#1) * (Var 24 - Var 26 / Num (2#1)) / (Site 0 * Site 0 * Site 0 * Site 0);
    Num (-6#1) * (Var 24 - Var 26 / Num (2#1)) / (Site 0 * Site 0 * Site 0 * Site 0) + Num (2#1) / (Site 0 * Site 0 * Site 0);
    Num (-6#1) * (Var 24 - Var 26 / Num (2#1)) / (Site 0 * Site 0 * Site 0 * Site 0);
    Num (-6#1) * (Var 24 - Var 26 / Num (2#1)) / (Site 0 * Site 0 * Site 0 * Site 0) - Num (1#1) / (Site 0 * Site 0 * Site 0)];
    [Num (-6#1) * (Var 24 - Var 26 / Num (2#1)) / (Site 0 * Site 0 * Site 0 * Site 0) - Num (1#1) / (Site 0 * Site 0 * Site 0);
    Num (-6#1) * (Var 24 - Var 26 / Num (2#1)) / (Site 0 * Site 0 * Site 0 * Site 0) - Num (1#1) / (Site 0 * Site 0 * Site 0);
    Num (-6#1) * (Var 24 - Var 26 / Num (2#1)) / (Site 0 * Site 0 * Site 0 * Site 0) - Num (1#1) / (Site 0 * Site 0 * Site 0);
    Num (-6#1) * (Var 24 - Var 26 / Num (2#1)) / (Site 0 * Site 0 * Site 0 * Site 0) - Num (1#1) / (Site 0 * Site 0 * Site 0);
    Num (-6#1) * (Var 24 - Var 26 / Num (2#1)) / (Site 0 * Site 0 * Site 0 * Site 0) + Num (2#1) / (Site 0 * Site 0 * Site 0) - Num (1#1) / (Site 0 * Site 0 * Site 0);
    Num (-6#1) * (Var 24 - Var 26 / Num (2#1)) / (Site 0 * Site 0 * Site 0 * Site 0) - Num (1#1) / (Site 0 * Site 0 * Site 0);
    Num (-6#1) * (Var 24 - Var 26 / Num (2#1)) / (Site 0 * Site 0 * Site 0 * Site 0) - Num (1#1) / (Site 0 * Site 0 * Site 0) - Num (1#1) / (Site 0 * Site 0 * Site 0)]];
    [[Num (-6#1) * (Var 24 - Var 26 / Num (2#1)) / (Site 0 * Site 0 * Site 0 * Site 0);
    Num (-6#1) * (Var 24 - Var 26 / Num (2#1)) / (Site 0 * Site 0 * Site 0 * Site 0);
    Num (-6#1) * (Var 24 - Var 26 / Num (2#1)) / (Site 0 * Site 0 * Site 0 * Site 0);
    Num (-6#1) * (Var 24 - Var 26 / Num (2#1)) / (Site 0 * Site 0 * Site 0 * Site 0);
    Num (-6#1) * (Var 24 - Var 26 / Num (2#1)) / (Site 0 * Site 0 * Site 0 * Site 0) + Num (2#1) / (Site 0 * Site 0 * Site 0);
    Num (-6#1) * (Var 24 - Var 26 / Num (2#1)) / (Site 0 * Site 0 * Site 0 * Site 0);
    Num (-6#1) * (Var 24 - Var 26 / Num (2#1)) / (Site 0 * Site 0 * Site 0 * Site 0) - Num (1#1) / (Site 0 * Site 0 * Site 0)];
    [Num (-6#1) * (Var 24 - Var 26 / Num (2#1)) / (Site 0 * Site 0 * Site 0 * Site 0);
    Num (-6#1) * (Var 24 - Var 26 / Num (2#1)) / (Site 0 * Site 0 * Site 0 * Site 0);
    Num (-6#1) * (Var 24 - Var 26 / Num (2#1)) / (Site 0 * Site 0 * Site 0 * Site 0);
    Num (-6#1) * (Var 24 - Var 26 / Num (2#1)) / (Site 0 * Site 0 * Site 0 * Site 0);
    Num (-6#1) * (Var 24 - Var 26 / Num (2#1)) / (Site 0 * Site 0 * Site 0 * Site 0) + Num (2#1) / (Site 0 * Site 0 * Site 0);
    Num (-6#1) * (Var 24 - Var 26 / Num (2#1)) / (Site 0 * Site 0 * Site 0 * Site 0);
    Num (-6#1) * (Var 24 - Var 26 / Num (2#1)) / (Site 0 * Site 0 * Site 0 * Site 0) - Num (1#1) / (Site 0 * Site 0 * Site 0)];
    [Num (-6#1) * (Var 24 - Var 26 / Num (2#1)) / (Site 0 * Site 0 * Site 0 * Site 0);
    Num (-6#1) * (Var 24 - Var 26 / Num (2#1)) / (Site 0 * Site 0 * Site 0 * Site 0);
    Num (-6#1) * (Var 24 - Var 26 / Num (2#1)) / (Site 0 * Site 0 * Site 0 * Site 0);
    Num (-6#1) * (Var 24 - Var 26 / Num (2#1)) / (Site 0 * Site 0 * Site 0 * Site 0);
    Num (-6#1) * (Var 24 - Var 26 / Num (2#1)) / (Site 0 * Site 0 * Site 0 * Site 0) + Num (2#1) / (Site 0 * Site 0 * Site 0);
    Num (-6#1) * (Var 24 - Var 26 / Num (2#1)) / (Site 0 * Site 0 * Site 0 * Site 0);
    Num (-6#1) * (Var 24 - Var 26 / Num (2#1)) / (Site 0 * Site 0 * Site 0 * Site 0) - Num (1#1) / (Site 0 * Site 0 * Site 0)];
    [Num (-6#1) * (Var 24 - Var 26 / Num (2#1)) / (Site 0 * Site 0 * Site 0 * Site 0);
    Num (-6#1) * (Var 24 - Var 26 / Num (2#1)) / (Site 0 * Site 0 * Site 0 * Site 0);
    Num (-6#1) * (Var 24 - Var 26 / Num (2#1)) / (Site 0 * Site 0 * Site 0 * Site 0);
    Num (-6#1) * (Var 24 - Var 26 / Num (2#1)) / (Site 0 * Site 0 * Site 0 * Site 0);
    Num (-6#1) * (Var 24 - Var 26 / Num (2#1)) / (Site 0 * Site 0 * Site 0 * Site 0) + Num (2#1) / (Site 0 * Site 0 * Site 0);
    Num (-6#1) * (Var 24 - Var 26 / Num (2#1)) / (Site 0 * Site 0 * Site 0 * Site 0);
    Num (-6#1) * (Var 24 - Var 26 / Num (2#1)) / (Site 0 * Site 0 * Site 0 * Site 0) - Num (1#1) / (Site 0 * Site 0 * Site 0)];
    [Num (-6#1) * (Var 24 - Var 26 / Num (2#1)) / (Site 0 * Site 0 * Site 0 * Site 0) + Num (2#1) / (Site 0 * Site 0 * Site 0);
    Num (-6#1) * (Var 24 - Var 26 / Num (2#1)) / (Site 0 * Site 0 * Site 0 * Site 0) + Num (2#1) / (Site 0 * Site 0 * Site 0);
    Num (-6#1) * (Var 24 - Var 26 / Num (2#1)) / (Site 0 * Site 0 * Site 0 * Site 0) + Num (2#1) / (Site 0 * Site 0 * Site 0);
    Num (-6#1) * (Var 24 - Var 26 / Num (2#1)) / (Site 0 * Site 0 * Site 0 * Site 0) + Num (2#1) / (Site 0 * Site 0 * Site 0);
    Num (-6#1) * (Var 24 - Var 26 / Num (2#1)) / (Site 0 * Site 0 * Site 0 * Site 0) + Num (2#1) / (Site 0 * Site 0 * Site 0) + Num (2#1) / (Site 0 * Site 0 * Site 0);
    Num (-6#1) * (Var 24 - Var 26 / Num (2#1)) / (Site 0 * Site 0 * Site 0 * Site 0) + Num (2#1) / (Site 0 * Site 0 * Site 0);
    Num (-6#1) * (Var 24 - Var 26 / Num (2#1)) / (Site 0 * Site 0 * Site 0 * Site 0) + Num (2#1) / (Site 0 * Site 0 * Site 0) - Num (1#1) / (Site 0 * Site 0 * Site 0)];
    [Num (-6#1) * (Var 24 - Var 26 / Num (2#1)) / (Site 0 * Site 0 * Site 0 * Site 0);
    Num (-6#1) * (Var 24 - Var 26 / Num (2#1)) / (Site 0 * Site 0 * Site 0 * Site 0);
    Num (-6#1) * (Var 24 - Var 26 / Num (2#1)) / (Site 0 * Site 0 * Site 0 * Site 0);
    Num (-6#1) * (Var 24 - Var 26 / Num (2#1)) / (Site 0 * Site 0 * Site 0 * Site 0);
    Num (-6#1) * (Var 24 - Var 26 / Num (2#1)) / (Site 0 * Site 0 * Site 0 * Site 0) + Num (2#1) / (Site 0 * Site 0 * Site 0);
    Num (-6#1) * (Var 24 - Var 26 / Num (2#1)) / (Site 0 * Site 0 * Site 0 * Site 0);
    Num (-6#1) * (Var 24 - Var 26 / Num (2#1)) / (Site 0 * Site 0 * Site 0 * Site 0) - Num (1#1) / (Site 0 * Site 0 * Site 0)];
    [Num (-6#1) * (Var 24 - Var 26 / Num (2#1)) / (Site 0 * Site 0 * Site 0 * Site 0) - Num (1#1) / (Site 0 * Site 0 * Site 0);
    Num (-6#1) * (Var 24 - Var 26 / Num (2#1)) / (Site 0 * Site 0 * Site 0 * Site 0) - Num (1#1) / (Site 0 * Site 0 * Site 0);
    Num (-6#1) * (Var 24 - Var 26 / Num (2#1)) / (Site 0 * Site 0 * Site 0 * Site 0) - Num (1#1) / (Site 0 * Site 0 * Site 0);
    Num (-6#1) * (Var 24 - Var 26 / Num (2#1)) / (Site 0 * Site 0 * Site 0 * Site 0) - Num (1#1) / (Site 0 * Site 0 * Site 0);
    Num (-6#1) * (Var 24 - Var 26 / Num (2#1)) / (Site 0 * Site 0 * Site 0 * Site 0) + Num (2#1) / (Site 0 * Site 0 * Site 0) - Num (1#1) / (Site 0 * Site 0 * Site 0);
    Num (-6#1) * (Var 24 - Var 26 / Num (2#1)) / (Site 0 * Site 0 * Site 0 * Site 0) - Num (1#1) / (Site 0 * Site 0 * Site 0);
    Num (-6#1) * (Var 24 - Var 26 / Num (2#1)) / (Site 0 * Site 0 * Site 0 * Site 0) - Num (1#1) / (Site 0 * Site 0 * Site 0) - Num (1#1) / (Site 0 * Site 0 * Site 0)]];
    [[Num (-6#1) * (Var 24 - Var 26 / Num (2#1)) / (Site 0 * Site 0 * Site 0 * Site 0) + Num (2#1) / (Site 0 * Site 0 * Site 0);
    Num (-6#1) * (Var 24 - Var 26 / Num (2#1)) / (Site 0 * Site 0 * Site 0 * Site 0) + Num (2#1) / (Site 0 * Site 0 * Site 0);
    Num (-6#1) * (Var 24 - Var 26 / Num (2#1)) / (Site 0 * Site 0 * Site 0 * Site 0) + Num (2#1) / (Site 0 * Site 0 * Site 0);
    Num (-6#1) * (Var 24 - Var 26 / Num (2#1)) / (Site 0 * Site 0 * Site 0 * Site 0) + Num (2#1) / (Site 0 * Site 0 * Site 0);
    Num (-6#1) * (Var 24 - Var 26 / Num (2#1)) / (Site 0 * Site 0 * Site 0 * Site 0) + Num (2#1) / (Site 0 * Site 0 * Site 0) + Num (2#1) / (Site 0 * Site 0 * Site 0);
    Num (-6#1) * (Var 24 - Var 26 / Num (2#1)) / (Site 0 * Site 0 * Site 0 * Site 0) + Num (2#1) / (Site 0 * Site 0 * Site 0);
    Num (-6#1) * (Var 24 - Var 26 / Num (2#1)) / (Site 0 * Site 0 * Site 0 * Site 0) + Num (2#1) / (Site 0 * Site 0 * Site 0) - Num (1#1) / (Site 0 * Site 0 * Site 0)];
    [Num (-6#1) * (Var 24 - Var 26 / Num (2#1)) / (Site 0 * Site 0 * Site 0 * Site 0) + Num (2#1) / (Site 0 * Site 0 * Site 0);
    Num (-6#1) * (Var 24 - Var 26 / Num (2#1)) / (Site 0 * Site 0 * Site 0 * Site 0) + Num (2#1) / (Site 0 * Site 0 * Site 0);
    Num (-6#1) * (Var 24 - Var 26 / Num (2#1)) / (Site 0 * Site 0 * Site 0 * Site 0) + Num (2#1) / (Site 0 * Site 0 * Site 0);
    Num (-6#1) * (Var 24 - Var 26 / Num (2#1)) / (Site 0 * Site 0 * Site 0 * Site 0) + Num (2#1) / (Site 0 * Site 0 * Site 0);
    Num (-6#1) * (Var 24 - Var 26 / Num (2#1)) / (Site 0 * Site 0 * Site 0 * Site 0) + Num (2#1) / (Site 0 * Site 0 * Site 0) + Num (2#1) / (Site 0 * Site 0 * Site 0);
    Num (-6#1) * (Var 24 - Var 26 / Num (2#1)) / (Site 0 * Site 0 * Site 0 * Site 0) + Num (2#1) / (Site 0 * Site 0 * Site 0);
    Num (-6#1) * (Var 24 - Var 26 / Num (2#1)) / (Site 0 * Site 0 * Site 0 * Site 0) + Num (2#1) / (Site 0 * Site 0 * Site 0) - Num (1#1) / (Site 0 * Site 0 * Site 0)];
    [Num (-6#1) * (Var 24 - Var 26 / Num (2#1)) / (Site 0 * Site 0 * Site 0 * Site 0) + Num (2#1) / (Site 0 * Site 0 * Site 0);
    Num (-6#1) * (Var 24 - Var 26 / Num (2#1)) / (Site 0 * Site 0 * Site 0 * Site 0) + Num (2#1) / (Site 0 * Site 0 * Site 0);
    Num (-6#1) * (Var 24 - Var 26 / Num (2#1)) / (Site 0 * Site 0 * Site 0 * Site 0) + Num (2#1) / (Site 0 * Site 0 * Site 0);
    Num (-6#1) * (Var 24 - Var 26 / Num (2#1)) / (Site 0 * Site 0 * Site 0 * Site 0) + Num (2#1) / (Site 0 * Site 0 * Site 0);
    Num (-6#1) * (Var 24 - Var 26 / Num (2#1)) / (Site 0 * Site 0 * Site 0 * Site 0) + Num (2#1) / (Site 0 * Site 0 * Site 0) + Num (2#1) / (Site 0 * Site 0 * Site 0);
    Num (-6#1) * (Var 24 - Var 26 / Num (2#1)) / (Site 0 * Site 0 * Site 0 * Site 0) + Num (2#1) / (Site 0 * Site 0 * Site 0);
    Num (-6#1) * (Var 24 - Var 26 / Num (2#1)) / (Site 0 * Site 0 * Site 0 * Site 0) + Num (2#1) / (Site 0 * Site 0 * Site 0) - Num (1#1) / (Site 0 * Site 0 * Site 0)];
    [Num (-6#1) * (Var 24 - Var 26 / Num (2#1)) / (Site 0 * Site 0 * Site 0 * Site 0) + Num (2#1) / (Site 0 * Site 0 * Site 0);
    Num (-6#1) * (Var 24 - Var 26 / Num (2#1)) / (Site 0 * Site 0 * Site 0 * Site 0) + Num (2#1) / (Site 0 * Site 0 * Site 0);
    Num (-6#1) * (Var 24 - Var 26 / Num (2#1)) / (Site 0 * Site 0 * Site 0 * Site 0) + Num (2#1) / (Site 0 * Site 0 * Site 0);
    Num (-6#1) * (Var 24 - Var 26 / Num (2#1)) / (Site 0 * Site 0 * Site 0 * Site 0) + Num (2#1) / (Site 0 * Site 0 * Site 0);
    Num (-6#1) * (Var 24 - Var 26 / Num (2#1)) / (Site 0 * Site 0 * Site 0 * Site 0) + Num (2#1) / (Site 0 * Site 0 * Site 0) + Num (2#1) / (Site 0 * Site 0 * Site 0);
    Num (-6#1) * (Var 24 - Var 26 / Num (2#1)) / (Site 0 * Site 0 * Site 0 * Site 0) + Num (2#1) / (Site 0 * Site 0 * Site 0);
    Num (-6#1) * (Var 24 - Var 26 / Num (2#1)) / (Site 0 * Site 0 * Site 0 * Site 0) + Num (2#1) / (Site 0 * Site 0 * Site 0) - Num (1#1) / (Site 0 * Site 0 * Site 0)];
    [Num (-6#1) * (Var 24 - Var 26 / Num (2#1)) / (Site 0 * Site 0 * Site 0 * Site 0) + Num (2#1) / (Site 0 * Site 0 * Site 0) + Num (2#1) / (Site 0 * Site 0 * Site 0);
    Num (-6#1) * (Var 24 - Var 26 / Num (2#1)) / (Site 0 * Site 0 * Site 0 * Site 0) + Num (2#1) / (Site 0 * Site 0 * Site 0) + Num (2#1) / (Site 0 * Site 0 * Site 0);
    Num (-6#1) * (Var 24 - Var 26 / Num (2#1)) / (Site 0 * Site 0 * Site 0 * Site 0) + Num (2#1) / (Site 0 * Site 0 * Site 0) + Num (2#1) / (Site 0 * Site 0 * Site 0);
    Num (-6#1) * (Var 24 - Var 26 / Num (2#1)) / (Site 0 * Site 0 * Site 0 * Site 0) + Num (2#1) / (Site 0 * Site 0 * Site 0) + Num (2#1) / (Site 0 * Site 0 * Site 0);
    Num (-6#1) * (Var 24 - Var 26 / Num (2#1)) / (Site 0 * Site 0 * Site 0 * Site 0) + Num (2#1) / (Site 0 * Site 0 * Site 0) + Num (2#1) / (Site 0 * Site 0 * Site 0) + Num (2#1) / (Site 0 * Site 0 * Site 0);
    Num (-6#1) * (Var 24 - Var 26 / Num (2#1)) / (Site 0 * Site 0 * Site 0 * Site 0) + Num (2#1) / (Site 0 * Site 0 * Site 0) + Num (2#1) / (Site 0 * Site 0 * Site 0);
    Num (-6#1) * (Var 24 - Var 26 / Num (2#1)) / (Site 0 * Site 0 * Site 0 * Site 0) + Num (2#1) / (Site 0 * Site 0 * Site 0) + Num (2#1) / (Site 0 * Site 0 * Site 0) - Num (1#1) / (Site 0 * Site 0 * Site 0)];
    [Num (-6#1) * (Var 24 - Var 26 / Num (2#1)) / (Site 0 * Site 0 * Site 0 * Site 0) + Num (2#1) / (Site 0 * Site 0 * Site 0);
    Num (-6#1) * (Var 24 - Var 26 / Num (2#1)) / (Site 0 * Site 0 * Site 0 * Site 0) + Num (2#1) / (Site 0 * Site 0 * Site 0);
    Num (-6#1) * (Var 24 - Var 26 / Num (2#1)) / (Site 0 * Site 0 * Site 0 * Site 0) + Num (2#1) / (Site 0 * Site 0 * Site 0);
    Num (-6#1) * (Var 24 - Var 26 / Num (2#1)) / (Site 0 * Site 0 * Site 0 * Site 0) + Num (2#1) / (Site 0 * Site 0 * Site 0);
    Num (-6#1) * (Var 24 - Var 26 / Num (2#1)) / (Site 0 * Site 0 * Site 0 * Site 0) + Num (2#1) / (Site 0 * Site 0 * Site 0) + Num (2#1) / (Site 0 * Site 0 * Site 0);
    Num (-6#1) * (Var 24 - Var 26 / Num (2#1)) / (Site 0 * Site 0 * Site 0 * Site 0) + Num (2#1) / (Site 0 * Site 0 * Site 0);
    Num (-6#1) * (Var 24 - Var 26 / Num (2#1)) / (Site 0 * Site 0 * Site 0 * Site 0) + Num (2#1) / (Site 0 * Site 0 * Site 0) - Num (1#1) / (Site 0 * Site 0 * Site 0)];
    [Num (-6#1) * (Var 24 - Var 26 / Num (2#1)) / (Site 0 * Site 0 * Site 0 * Site 0) + Num (2#1) / (Site 0 * Site 0 * Site 0) - Num (1#1) / (Site 0 * Site 0 * Site 0);
    Num (-6#1) * (Var 24 - Var 26 / Num (2#1)) / (Site 0 * Site 0 * Site 0 * Site 0) + Num (2#1) / (Site 0 * Site 0 * Site 0) - Num (1#1) / (Site 0 * Site 0 * Site 0);
    Num (-6#1) * (Var 24 - Var 26 / Num (2#1)) / (Site 0 * Site 0 * Site 0 * Site 0) + Num (2#1) / (Site 0 * Site 0 * Site 0) - Num (1#1) / (Site 0 * Site 0 * Site 0);
    Num (-6#1) * (Var 24 - Var 26 / Num (2#1)) / (Site 0 * Site 0 * Site 0 * Site 0) + Num (2#1) / (Site 0 * Site 0 * Site 0) - Num (1#1) / (Site 0 * Site 0 * Site 0);
    Num (-6#1) * (Var 24 - Var 26 / Num (2#1)) / (Site 0 * Site 0 * Site 0 * Site 0) + Num (2#1) / (Site 0 * Site 0 * Site 0) + Num (2#1) / (Site 0 * Site 0 * Site 0) - Num (1#1) / (Site 0 * Site 0 * Site 0);
    Num (-6#1) * (Var 24 - Var 26 / Num (2#1)) / (Site 0 * Site 0 * Site 0 * Site 0) + Num (2#1) / (Site 0 * Site 0 * Site 0) - Num (1#1) / (Site 0 * Site 0 * Site 0);
    Num (-6#1) * (Var 24 - Var 26 / Num (2#1)) / (Site 0 * Site 0 * Site 0 * Site 0) + Num (2#1) / (Site 0 * Site 0 * Site 0) - Num (1#1) / (Site 0 * Site 0 * Site 0) - Num (1#1) / (Site 0 * Site 0 * Site 0)]];
    [[Num (-6#1) * (Var 24 - Var 26 / Num (2#1)) / (Site 0 * Site 0 * Site 0 * Site 0);
    Num (-6#1) * (Var 24 - Var 26 / Num (2#1)) / (Site 0 * Site 0 * Site 0 * Site 0);
    Num (-6#1) * (Var 24 - Var 26 / Num (2#1)) / (Site 0 * Site 0 * Site 0 * Site 0);
    Num (-6#1) * (Var 24 - Var 26 / Num (2#1)) / (Site 0 * Site 0 * Site 0 * Site 0);
    Num (-6#1) * (Var 24 - Var 26 / Num (2#1)) / (Site 0 * Site 0 * Site 0 * Site 0) + Num (2#1) / (Site 0 * Site 0 * Site 0);
    Num (-6#1) * (Var 24 - Var 26 / Num (2#1)) / (Site 0 * Site 0 * Site 0 * Site 0);
    Num (-6#1) * (Var 24 - Var 26 / Num (2#1)) / (Site 0 * Site 0 * Site 0 * Site 0) - Num (1#1) / (Site 0 * Site 0 * Site 0)];
    [Num (-6#1) * (Var 24 - Var 26 / Num (2#1)) / (Site 0 * Site 0 * Site 0 * Site 0);
    Num (-6#1) * (Var 24 - Var 26 / Num (2#1)) / (Site 0 * Site 0 * Site 0 * Site 0);
    Num (-6#1) * (Var 24 - Var 26 / Num (2#1)) / (Site 0 * Site 0 * Site 0 * Site 0);
    Num (-6#1) * (Var 24 - Var 26 / Num (2#1)) / (Site 0 * Site 0 * Site 0 * Site 0);
    Num (-6#1) * (Var 24 - Var 26 / Num (2#1)) / (Site 0 * Site 0 * Site 0 * Site 0) + Num (2#1) / (Site 0 * Site 0 * Site 0);
    Num (-6#1) * (Var 24 - Var 26 / Num (2#1)) / (Site 0 * Site 0 * Site 0 * Site 0);
    Num (-6#1) * (Var 24 - Var 26 / Num (2#1)) / (Site 0 * Site 0 * Site 0 * Site 0) - Num (1#1) / (Site 0 * Site 0 * Site 0)];
    [Num (-6#1) * (Var 24 - Var 26 / Num (2#1)) / (Site 0 * Site 0 * Site 0 * Site 0);
    Num (-6#1) * (Var 24 - Var 26 / Num (2#1)) / (Site 0 * Site 0 * Site 0 * Site 0);
    Num (-6#1) * (Var 24 - Var 26 / Num (2#1)) / (Site 0 * Site 0 * Site 0 * Site 0);
    Num (-6#1) * (Var 24 - Var 26 / Num (2#1)) / (Site 0 * Site 0 * Site 0 * Site 0);
    Num (-6#1) * (Var 24 - Var 26 / Num (2#1)) / (Site 0 * Site 0 * Site 0 * Site 0) + Num (2#1) / (Site 0 * Site 0 * Site 0);
    Num (-6#1) * (Var 24 - Var 26 / Num (2#1)) / (Site 0 * Site 0 * Site 0 * Site 0);
    Num (-6#1) * (Var 24 - Var 26 / Num (2#1)) / (Site 0 * Site 0 * Site 0 * Site 0) - Num (1#1) / (Site 0 * Site 0 * Site 0)];
    [Num (-6#1) * (Var 24 - Var 26 / Num (2#1)) / (Site 0 * Site 0 * Site 0 * Site 0);
    Num (-6#1) * (Var 24 - Var 26 / Num (2#1)) / (Site 0 * Site 0 * Site 0 * Site 0);
    Num (-6#1) * (Var 24 - Var 26 / Num (2#1)) / (Site 0 * Site 0 * Site 0 * Site 0);
    Num (-6#1) * (Var 24 - Var 26 / Num (2#1)) / (Site 0 * Site 0 * Site 0 * Site 0);
    Num (-6#1) * (Var 24 - Var 26 / Num (2#1)) / (Site 0 * Site 0 * Site 0 * Site 0) + Num (2#1) / (Site 0 * Site 0 * Site 0);
    Num (-6#1) * (Var 24 - Var 26 / Num (2#1)) / (Site 0 * Site 0 * Site 0 * Site 0);
    Num (-6#1) * (Var 24 - Var 26 / Num (2#1)) / (Site 0 * Site 0 * Site 0 * Site 0) - Num (1#1) / (Site 0 * Site 0 * Site 0)];
    [Num (-6#1) * (Var 24 - Var 26 / Num (2#1)) / (Site 0 * Site 0 * Site 0 * Site 0) + Num (2#1) / (Site 0 * Site 0 * Site 0);
    Num (-6#1) * (Var 24 - Var 26 / Num (2#1)) / (Site 0 * Site 0 * Site 0 * Site 0) + Num (2#1) / (Site 0 * Site 0 * Site 0);
    Num (-6#1) * (Var 24 - Var 26 / Num (2#1)) / (Site 0 * Site 0 * Site 0 * Site 0) + Num (2#1) / (Site 0 * Site 0 * Site 0);
    Num (-6#1) * (Var 24 - Var 26 / Num (2#1)) / (Site 0 * Site 0 * Site 0 * Site 0) + Num (2#1) / (Site 0 * Site 0 * Site 0);
    Num (-6#1) * (Var 24 - Var 26 / Num (2#1)) / (Site 0 * Site 0 * Site 0 * Site 0) + Num (2#1) / (Site 0 * Site 0 * Site 0) + Num (2#1) / (Site 0 * Site 0 * Site 0);
    Num (-6#1) * (Var 24 - Var 26 / Num (2#1)) / (Site 0 * Site 0 * Site 0 * Site 0) + Num (2#1) / (Site 0 * Site 0 * Site 0);
    Num (-6#1) * (Var 24 - Var 26 / Num (2#1)) / (Site 0 * Site 0 * Site 0 * Site 0) + Num (2#1) / (Site 0 * Site 0 * Site 0) - Num (1#1) / (Site 0 * Site 0 * Site 0)];
    [Num (-6#1) * (Var 24 - Var 26 / Num (2#1)) / (Site 0 * Site 0 * Site 0 * Site 0);
    Num (-6#1) * (Var 24 - Var 26 / Num (2#1)) / (Site 0 * Site 0 * Site 0 * Site 0);
    Num (-6#1) * (Var 24 - Var 26 / Num (2#1)) / (Site 0 * Site 0 * Site 0 * Site 0);
    Num (-6#1) * (Var 24 - Var 26 / Num (2#1)) / (Site 0 * Site 0 * Site 0 * Site 0);
    Num (-6#1) * (Var 24 - Var 26 / Num (2#1)) / (Site 0 * Site 0 * Site 0 * Site 0) + Num (2#1) / (Site 0 * Site 0 * Site 0);
    Num (-6#1) * (Var 24 - Var 26 / Num (2#1)) / (Site 0 * Site 0 * Site 0 * Site 0);
    Num (-6#1) * (Var 24 - Var 26 / Num (2#1)) / (Site 0 * Site 0 * Site 0 * Site 0) - Num (1#1) / (Site 0 * Site 0 * Site 0)];
    [Num (-6#1) * (Var 24 - Var 26 / Num (2#1)) / (Site 0 * Site 0 * Site 0 * Site 0) - Num (1#1) / (Site 0 * Site 0 * Site 0);
    Num (-6#1) * (Var 24 - Var 26 / Num (2#1)) / (Site 0 * Site 0 * Site 0 * Site 0) - Num (1#1) / (Site 0 * Site 0 * Site 0);
    Num (-6#1) * (Var 24 - Var 26 / Num (2#1)) / (Site 0 * Site 0 * Site 0 * Site 0) - Num (1#1) / (Site 0 * Site 0 * Site 0);
    Num (-6#1) * (Var 24 - Var 26 / Num (2#1)) / (Site 0 * Site 0 * Site 0 * Site 0) - Num (1#1) / (Site 0 * Site 0 * Site 0);
    Num (-6#1) * (Var 24 - Var 26 / Num (2#1)) / (Site 0 * Site 0 * Site 0 * Site 0) + Num (2#1) / (Site 0 * Site 0 * Site 0) - Num (1#1) / (Site 0 * Site 0 * Site 0);
    Num (-6#1) * (Var 24 - Var 26 / Num (2#1)) / (Site 0 * Site 0 * Site 0 * Site 0) - Num (1#1) / (Site 0 * Site 0 * Site 0);
    Num (-6#1) * (Var 24 - Var 26 / Num (2#1)) / (Site 0 * Site 0 * Site 0 * Site 0) - Num (1#1) / (Site 0 * Site 0 * Site 0) - Num (1#1) / (Site 0 * Site 0 * Site 0)]];
    [[Num (-6#1) * (Var 24 - Var 26 / Num (2#1)) / (Site 0 * Site 0 * Site 0 * Site 0) - Num (1#1) / (Site 0 * Site 0 * Site 0);
    Num (-6#1) * (Var 24 - Var 26 / Num (2#1)) / (Site 0 * Site 0 * Site 0 * Site 0) - Num (1#1) / (Site 0 * Site 0 * Site 0);
    Num (-6#1) * (Var 24 - Var 26 / Num (2#1)) / (Site 0 * Site 0 * Site 0 * Site 0) - Num (1#1) / (Site 0 * Site 0 * Site 0);
    Num (-6#1) * (Var 24 - Var 26 / Num (2#1)) / (Site 0 * Site 0 * Site 0 * Site 0) - Num (1#1) / (Site 0 * Site 0 * Site 0);
    Num (-6#1) * (Var 24 - Var 26 / Num (2#1)) / (Site 0 * Site 0 * Site 0 * Site 0) + Num (2#1) / (Site 0 * Site 0 * Site 0) - Num (1#1) / (Site 0 * Site 0 * Site 0);
    Num (-6#1) * (Var 24 - Var 26 / Num (2#1)) / (Site 0 * Site 0 * Site 0 * Site 0) - Num (1#1) / (Site 0 * Site 0 * Site 0);
    Num (-6#1) * (Var 24 - Var 26 / Num (2#1)) / (Site 0 * Site 0 * Site 0 * Site 0) - Num (1#1) / (Site 0 * Site 0 * Site 0) - Num (1#1) / (Site 0 * Site 0 * Site 0)];
    [Num (-6#1) * (Var 24 - Var 26 / Num (2#1)) / (Site 0 * Site 0 * Site 0 * Site 0) - Num (1#1) / (Site 0 * Site 0 * Site 0);
    Num (-6#1) * (Var 24 - Var 26 / Num (2#1)) / (Site 0 * Site 0 * Site 0 * Site 0) - Num (1#1) / (Site 0 * Site 0 * Site 0);
    Num (-6#1) * (Var 24 - Var 26 / Num (2#1)) / (Site 0 * Site 0 * Site 0 * Site 0) - Num (1#1) / (Site 0 * Site 0 * Site 0);
    Num (-6#1) * (Var 24 - Var 26 / Num (2#1)) / (Site 0 * Site 0 * Site 0 * Site 0) - Num (1#1) / (Site 0 * Site 0 * Site 0);
    Num (-6#1) * (Var 24 - Var 26 / Num (2#1)) / (Site 0 * Site 0 * Site 0 * Site 0) + Num (2#1) / (Site 0 * Site 0 * Site 0) - Num (1#1) / (Site 0 * Site 0 * Site 0);
    Num (-6#1) * (Var 24 - Var 26 / Num (2#1)) / (Site 0 * Site 0 * Site 0 * Site 0) - Num (1#1) / (Site 0 * Site 0 * Site 0);
    Num (-6#1) * (Var 24 - Var 26 / Num (2#1)) / (Site 0 * Site 0 * Site 0 * Site 0) - Num (1#1) / (Site 0 * Site 0 * Site 0) - Num (1#1) / (Site 0 * Site 0 * Site 0)];
    [Num (-6#1) * (Var 24 - Var 26 / Num (2#1)) / (Site 0 * Site 0 * Site 0 * Site 0) - Num (1#1) / (Site 0 * Site 0 * Site 0);
    Num (-6#1) * (Var 24 - Var 26 / Num (2#1)) / (Site 0 * Site 0 * Site 0 * Site 0) - Num (1#1) / (Site 0 * Site 0 * Site 0);
    Num (-6#1) * (Var 24 - Var 26 / Num (2#1)) / (Site 0 * Site 0 * Site 0 * Site 0) - Num (1#1) / (Site 0 * Site 0 * Site 0);
    Num (-6#1) * (Var 24 - Var 26 / Num (2#1)) / (Site 0 * Site 0 * Site 0 * Site 0) - Num (1#1) / (Site 0 * Site 0 * Site 0);
    Num (-6#1) * (Var 24 - Var 26 / Num (2#1)) / (Site 0 * Site 0 * Site 0 * Site 0) + Num (2#1) / (Site 0 * Site 0 * Site 0) - Num (1#1) / (Site 0 * Site 0 * Site 0);
    Num (-6#1) * (Var 24 - Var 26 / Num (2#1)) / (Site 0 * Site 0 * Site 0 * Site 0) - Num (1#1) / (Site 0 * Site 0 * Site 0);
    Num (-6#1) * (Var 24 - Var 26 / Num (2#1)) / (Site 0 * Site 0 * Site 0 * Site 0) - Num (1#1) / (Site 0 * Site 0 * Site 0) - Num (1#1) / (Site 0 * Site 0 * Site 0)];
    [Num (-6#1) * (Var 24 - Var 26 / Num (2#1)) / (Site 0 * Site 0 * Site 0 * Site 0) - Num (1#1) / (Site 0 * Site 0 * Site 0);
    Num (-6#1) * (Var 24 - Var 26 / Num (2#1)) / (Site 0 * Site 0 * Site 0 * Site 0) - Num (1#1) / (Site 0 * Site 0 * Site 0);
    Num (-6#1) * (Var 24 - Var 26 / Num (2#1)) / (Site 0 * Site 0 * Site 0 * Site 0) - Num (1#1) / (Site 0 * Site 0 * Site 0);
    Num (-6#1) * (Var 24 - Var 26 / Num (2#1)) / (Site 0 * Site 0 * Site 0 * Site 0) - Num (1#1) / (Site 0 * Site 0 * Site 0);
    Num (-6#1) * (Var 24 - Var 26 / Num (2#1)) / (Site 0 * Site 0 * Site 0 * Site 0) + Num (2#1) / (Site 0 * Site 0 * Site 0) - Num (1#1) / (Site 0 * Site 0 * Site 0);
    Num (-6#1) * (Var 24 - Var 26 / Num (2#1)) / (Site 0 * Site 0 * Site 0 * Site 0) - Num (1#1) / (Site 0 * Site 0 * Site 0);
    Num (-6#1) * (Var 24 - Var 26 / Num (2#1)) / (Site 0 * Site 0 * Site 0 * Site 0) - Num (1#1) / (Site 0 * Site 0 * Site 0) - Num (1#1) / (Site 0 * Site 0 * Site 0)];
    [Num (-6#1) * (Var 24 - Var 26 / Num (2#1)) / (Site 0 * Site 0 * Site 0 * Site 0) + Num (2#1) / (Site 0 * Site 0 * Site 0) - Num (1#1) / (Site 0 * Site 0 * Site 0);
    Num (-6#1) * (Var 24 - Var 26 / Num (2#1)) / (Site 0 * Site 0 * Site 0 * Site 0) + Num (2#1) / (Site 0 * Site 0 * Site 0) - Num (1#1) / (Site 0 * Site 0 * Site 0);
    Num (-6#1) * (Var 24 - Var 26 / Num (2#1)) / (Site 0 * Site 0 * Site 0 * Site 0) + Num (2#1) / (Site 0 * Site 0 * Site 0) - Num (1#1) / (Site 0 * Site 0 * Site 0);
    Num (-6#1) * (Var 24 - Var 26 / Num (2#1)) / (Site 0 * Site 0 * Site 0 * Site 0) + Num (2#1) / (Site 0 * Site 0 * Site 0) - Num (1#1) / (Site 0 * Site 0 * Site 0);
    Num (-6#1) * (Var 24 - Var 26 / Num (2#1)) / (Site 0 * Site 0 * Site 0 * Site 0) + Num (2#1) / (Site 0 * Site 0 * Site 0) + Num (2#1) / (Site 0 * Site 0 * Site 0) - Num (1#1) / (Site 0 * Site 0 * Site 0);
    Num (-6#1) * (Var 24 - Var 26 / Num (2#1)) / (Site 0 * Site 0 * Site 0 * Site 0) + Num (2#1) / (Site 0 * Site 0 * Site 0) - Num (1#1) / (Site 0 * Site 0 * Site 0);
    Num (-6#1) * (Var 24 - Var 26 / Num (2#1)) / (Site 0 * Site 0 * Site 0 * Site 0) + Num (2#1) / (Site 0 * Site 0 * Site 0) - Num (1#1) / (Site 0 * Site 0 * Site 0) - Num (1#1) / (Site 0 * Site 0 * Site 0)];
    [Num (-6#1) * (Var 24 - Var 26 / Num (2#1)) / (Site 0 * Site 0 * Site 0 * Site 0) - Num (1#1) / (Site 0 * Site 0 * Site 0);
    Num (-6#1) * (Var 24 - Var 26 / Num (2#1)) / (Site 0 * Site 0 * Site 0 * Site 0) - Num (1#1) / (Site 0 * Site 0 * Site 0);
    Num (-6#1) * (Var 24 - Var 26 / Num (2#1)) / (Site 0 * Site 0 * Site 0 * Site 0) - Num (1#1) / (Site 0 * Site 0 * Site 0);
    Num (-6#1) * (Var 24 - Var 26 / Num (2#1)) / (Site 0 * Site 0 * Site 0 * Site 0) - Num (1#1) / (Site 0 * Site 0 * Site 0);
    Num (-6#1) * (Var 24 - Var 26 / Num (2#1)) / (Site 0 * Site 0 * Site 0 * Site 0) + Num (2#1) / (Site 0 * Site 0 * Site 0) - Num (1#1) / (Site 0 * Site 0 * Site 0);
    Num (-6#1) * (Var 24 - Var 26 / Num (2#1)) / (Site 0 * Site 0 * Site 0 * Site 0) - Num (1#1) / (Site 0 * Site 0 * Site 0);
    Num (-6#1) * (Var 24 - Var 26 / Num (2#1)) / (Site 0 * Site 0 * Site 0 * Site 0) - Num (1#1) / (Site 0 * Site 0 * Site 0) - Num (1#1) / (Site 0 * Site 0 * Site 0)];
    [Num (-6#1) * (Var 24 - Var 26 / Num (2#1)) / (Site 0 * Site 0 * Site 0 * Site 0) - Num (1#1) / (Site 0 * Site 0 * Site 0) - Num (1#1) / (Site 0 * Site 0 * Site 0);
    Num (-6#1) * (Var 24 - Var 26 / Num (2#1)) / (Site 0 * Site 0 * Site 0 * Site 0) - Num (1#1) / (Site 0 * Site 0 * Site 0) - Num (1#1) / (Site 0 * Site 0 * Site 0);
    Num (-6#1) * (Var 24 - Var 26 / Num (2#1)) / (Site 0 * Site 0 * Site 0 * Site 0) - Num (1#1) / (Site 0 * Site 0 * Site 0) - Num (1#1) / (Site 0 * Site 0 * Site 0);
    Num (-6#1) * (Var 24 - Var 26 / Num (2#1)) / (Site 0 * Site 0 * Site 0 * Site 0) - Num (1#1) / (Site 0 * Site 0 * Site 0) - Num (1#1) / (Site 0 * Site 0 * Site 0);
    Num (-6#1) * (Var 24 - Var 26 / Num (2#1)) / (Site 0 * Site 0 * Site 0 * Site 0) + Num (2#1) / (Site 0 * Site 0 * Site 0) - Num (1#1) / (Site 0 * Site 0 * Site 0) - Num (1#1) / (Site 0 * Site 0 * Site 0);
    Num (-6#1) * (Var 24 - Var 26 / Num (2#1)) / (Site 0 * Site 0 * Site 0 * Site 0) - Num (1#1) / (Site 0 * Site 0 * Site 0) - Num (1#1) / (Site 0 * Site 0 * Site 0);
    Num (-6#1) * (Var 24 - Var 26 / Num (2#1)) / (Site 0 * Site 0 * Site 0 * Site 0) - Num (1#1) / (Site 0 * Site 0 * Site 0) - Num (1#1) / (Site 0 * Site 0 * Site 0) - Num (1#1) / (Site 0 * Site 0 * Site 0)]]];
    [[[Num (-6#1) * (Var 25 + Var 26 / Num (2#1)) / (Site 0 * Site 0 * Site 0 * Site 0);
    Num (-6#1) * (Var 25 + Var 26 / Num (2#1)) / (Site 0 * Site 0 * Site 0 * Site 0);
    Num (-6#1) * (Var 25 + Var 26 / Num (2#1)) / (Site 0 * Site 0 * Site 0 * Site 0);
    Num (-6#1) * (Var 25 + Var 26 / Num (2#1)) / (Site 0 * Site 0 * Site 0 * Site 0);
    Num (-6#1) * (Var 25 + Var 26 / Num (2#1)) / (Site 0 * Site 0 * Site 0 * Site 0);
    Num (-6#1) * (Var 25 + Var 26 / Num (2#1)) / (Site 0 * Site 0 * Site 0 * Site 0) + Num (2#1) / (Site 0 * Site 0 * Site 0);
    Num (-6#1) * (Var 25 + Var 26 / Num (2#1)) / (Site 0 * Site 0 * Site 0 * Site 0) + Num (1#1) / (Site 0 * Site 0 * Site 0)];
    [Num (-6#1) * (Var 25 + Var 26 / Num (2#1)) / (Site 0 * Site 0 * Site 0 * Site 0);
    Num (-6#1) * (Var 25 + Var 26 / Num (2#1)) / (Site 0 * Site 0 * Site 0 * Site 0);
    Num (-6#1) * (Var 25 + Var 26 / Num (2#1)) / (Site 0 * Site 0 * Site 0 * Site 0);
    Num (-6#1) * (Var 25 + Var 26 / Num (2#1)) / (Site 0 * Site 0 * Site 0 * Site 0);
    Num (-6#1) * (Var 25 + Var 26 / Num (2#1)) / (Site 0 * Site 0 * Site 0 * Site 0);
    Num (-6#1) * (Var 25 + Var 26 / Num (2#1)) / (Site 0 * Site 0 * Site 0 * Site 0) + Num (2#1) / (Site 0 * Site 0 * Site 0);
    Num (-6#1) * (Var 25 + Var 26 / Num (2#1)) / (Site 0 * Site 0 * Site 0 * Site 0) + Num (1#1) / (Site 0 * Site 0 * Site 0)];
    [Num (-6#1) * (Var 25 + Var 26 / Num (2#1)) / (Site 0 * Site 0 * Site 0 * Site 0);
    Num (-6#1) * (Var 25 + Var 26 / Num (2#1)) / (Site 0 * Site 0 * Site 0 * Site 0);
    Num (-6#1) * (Var 25 + Var 26 / Num (2#1)) / (Site 0 * Site 0 * Site 0 * Site 0);
    Num (-6#1) * (Var 25 + Var 26 / Num (2#1)) / (Site 0 * Site 0 * Site 0 * Site 0);
    Num (-6#1) * (Var 25 + Var 26 / Num (2#1)) / (Site 0 * Site 0 * Site 0 * Site 0);
    Num (-6#1) * (Var 25 + Var 26 / Num (2#1)) / (Site 0 * Site 0 * Site 0 * Site 0) + Num (2#1) / (Site 0 * Site 0 * Site 0);
    Num (-6#1) * (Var 25 + Var 26 / Num (2#1)) / (Site 0 * Site 0 * Site 0 * Site 0) + Num (1#1) / (Site 0 * Site 0 * Site 0)];
    [Num (-6#1) * (Var 25 + Var 26 / Num (2#1)) / (Site 0 * Site 0 * Site 0 * Site 0);
    Num (-6#1) * (Var 25 + Var 26 / Num (2#1)) / (Site 0 * Site 0 * Site 0 * Site 0);
    Num (-6#1) * (Var 25 + Var 26 / Num (2#1)) / (Site 0 * Site 0 * Site 0 * Site 0);
    Num (-6#1) * (Var 25 + Var 26 / Num (2#1)) / (Site 0 * Site 0 * Site 0 * Site 0);
    Num (-6#1) * (Var 25 + Var 26 / Num (2#1)) / (Site 0 * Site 0 * Site 0 * Site 0);
    Num (-6#1) * (Var 25 + Var 26 / Num (2#1)) / (Site 0 * Site 0 * Site 0 * Site 0) + Num (2#1) / (Site 0 * Site 0 * Site 0);
    Num (-6#1) * (Var 25 + Var 26 / Num (2#1)) / (Site 0 * Site 0 * Site 0 * Site 0) + Num (1#1) / (Site 0 * Site 0 * Site 0)];
    [Num (-6#1) * (Var 25 + Var 26 / Num (2#1)) / (Site 0 * Site 0 * Site 0 * Site 0);
    Num (-6#1) * (Var 25 + Var 26 / Num (2#1)) / (Site 0 * Site 0 * Site 0 * Site 0);
    Num (-6#1) * (Var 25 + Var 26 / Num (2#1)) / (Site 0 * Site 0 * Site 0 * Site 0);
    Num (-6#1) * (Var 25 + Var 26 / Num (2#1)) / (Site 0 * Site 0 * Site 0 * Site 0);
    Num (-6#1) * (Var 25 + Var 26 / Num (2#1)) / (Site 0 * Site 0 * Site 0 * Site 0);
    Num (-6#1) * (Var 25 + Var 26 / Num (2#1)) / (Site 0 * Site 0 * Site 0 * Site 0) + Num (2#1) / (Site 0 * Site 0 * Site 0);
    Num (-6#1) * (Var 25 + Var 26 / Num (2#1)) / (Site 0 * Site 0 * Site 0 * Site 0) + Num (1#1) / (Site 0 * Site 0 * Site 0)];
    [Num (-6#1) * (Var 25 + Var 26 / Num (2#1)) / (Site 0 * Site 0 * Site 0 * Site 0) + Num (2#1) / (Site 0 * Site 0 * Site 0);
    Num (-6#1) * (Var 25 + Var 26 / Num (2#1)) / (Site 0 * Site 0 * Site 0 * Site 0) + Num (2#1) / (Site 0 * Site 0 * Site 0);
    Num (-6#1) * (Var 25 + Var 26 / Num (2#1)) / (Site 0 * Site 0 * Site 0 * Site 0) + Num (2#1) / (Site 0 * Site 0 * Site 0);
    Num (-6#1) * (Var 25 + Var 26 / Num (2#1)) / (Site 0 * Site 0 * Site 0 * Site 0) + Num (2#1) / (Site 0 * Site 0 * Site 0);
    Num (-6#1) * (Var 25 + Var 26 / Num (2#1)) / (Site 0 * Site 0 * Site 0 * Site 0) + Num (2#1) / (Site 0 * Site 0 * Site 0);
    Num (-6#1) * (Var 25 + Var 26 / Num (2#1)) / (Site 0 * Site 0 * Site 0 * Site 0) + Num (2#1) / (Site 0 * Site 0 * Site 0) + Num (2#1) / (Site 0 * Site 0 * Site 0);
    Num (-6#1) * (Var 25 + Var 26 / Num (2#1)) / (Site 0 * Site 0 * Site 0 * Site 0) + Num (2#1) / (Site 0 * Site 0 * Site 0) + Num (1#1) / (Site 0 * Site 0 * Site 0)];
    [Num (-6#1) * (Var 25 + Var 26 / Num (2#1)) / (Site 0 * Site 0 * Site 0 * Site 0) + Num (1#1) / (Site 0 * Site 0 * Site 0);
    Num (-6#1) * (Var 25 + Var 26 / Num (2#1)) / (Site 0 * Site 0 * Site 0 * Site 0) + Num (1#1) / (Site 0 * Site 0 * Site 0);
    Num (-6#1) * (Var 25 + Var 26 / Num (2#1)) / (Site 0 * Site 0 * Site 0 * Site 0) + Num (1#1) / (Site 0 * Site 0 * Site 0);
    Num (-6#1) * (Var 25 + Var 26 / Num (2#1)) / (Site 0 * Site 0 * Site 0 * Site 0) + Num (1#1) / (Site 0 * Site 0 * Site 0);
    Num (-6#1) * (Var 25 + Var 26 / Num (2#1)) / (Site 0 * Site 0 * Site 0 * Site 0) + Num (1#1) / (Site 0 * Site 0 * Site 0);
    Num (-6#1) * (Var 25 + Var 26 / Num (2#1)) / (Site 0 * Site 0 * Site 0 * Site 0) + Num (2#1) / (Site 0 * Site 0 * Site 0) + Num (1#1) / (Site 0 * Site 0 * Site 0);
    Num (-6#1) * (Var 25 + Var 26 / Num (2#1)) / (Site 0 * Site 0 * Site 0 * Site 0) + Num (1#1) / (Site 0 * Site 0 * Site 0) + Num (1#1) / (Site 0 * Site 0 * Site 0)]];
    [[Num (-6#1) * (Var 25 + Var 26 / Num (2#1)) / (Site 0 * Site 0 * Site 0 * Site 0);
    Num (-6#1) * (Var 25 + Var 26 / Num (2#1)) / (Site 0 * Site 0 * Site 0 * Site 0);
    Num (-6#1) * (Var 25 + Var 26 / Num (2#1)) / (Site 0 * Site 0 * Site 0 * Site 0);
    Num (-6#1) * (Var 25 + Var 26 / Num (2#1)) / (Site 0 * Site 0 * Site 0 * Site 0);
    Num (-6#1) * (Var 25 + Var 26 / Num (2#1)) / (Site 0 * Site 0 * Site 0 * Site 0);
    Num (-6#1) * (Var 25 + Var 26 / Num (2#1)) / (Site 0 * Site 0 * Site 0 * Site 0) + Num (2#1) / (Site 0 * Site 0 * Site 0);
    Num (-6#1) * (Var 25 + Var 26 / Num (2#1)) / (Site 0 * Site 0 * Site 0 * Site 0) + Num (1#1) / (Site 0 * Site 0 * Site 0)];
    [Num (-6#1) * (Var 25 + Var 26 / Num (2#1)) / (Site 0 * Site 0 * Site 0 * Site 0);
    Num (-6#1) * (Var 25 + Var 26 / Num (2#1)) / (Site 0 * Site 0 * Site 0 * Site 0);
    Num (-6#1) * (Var 25 + Var 26 / Num (2#1)) / (Site 0 * Site 0 * Site 0 * Site 0);
    Num (-6#1) * (Var 25 + Var 26 / Num (2#1)) / (Site 0 * Site 0 * Site 0 * Site 0);
    Num (-6#1) * (Var 25 + Var 26 / Num (2#1)) / (Site 0 * Site 0 * Site 0 * Site 0);
    Num (-6#1) * (Var 25 + Var 26 / Num (2#1)) / (Site 0 * Site 0 * Site 0 * Site 0) + Num (2#1) / (Site 0 * Site 0 * Site 0);
    Num (-6#1) * (Var 25 + Var 26 / Num (2#1)) / (Site 0 * Site 0 * Site 0 * Site 0) + Num (1#1) / (Site 0 * Site 0 * Site 0)];
    [Num (-6#1) * (Var 25 + Var 26 / Num (2#1)) / (Site 0 * Site 0 * Site 0 * Site 0);
    Num (-6#1) * (Var 25 + Var 26 / Num (2#1)) / (Site 0 * Site 0 * Site 0 * Site 0);
    Num (-6#1) * (Var 25 + Var 26 / Num (2#1)) / (Site 0 * Site 0 * Site 0 * Site 0);
    Num (-6#1) * (Var 25 + Var 26 / Num (2#1)) / (Site 0 * Site 0 * Site 0 * Site 0);
    Num (-6#1) * (Var 25 + Var 26 / Num (2#1)) / (Site 0 * Site 0 * Site 0 * Site 0);
    Num (-6#1) * (Var 25 + Var 26 / Num (2#1)) / (Site 0 * Site 0 * Site 0 * Site 0) + Num (2#1) / (Site 0 * Site 0 * Site 0);
    Num (-6#1) * (Var 25 + Var 26 / Num (2#1)) / (Site 0 * Site 0 * Site 0 * Site 0) + Num (1#1) / (Site 0 * Site 0 * Site 0)];
    [Num (-6#1) * (Var 25 + Var 26 / Num (2#1)) / (Site 0 * Site 0 * Site 0 * Site 0);
    Num (-6#1) * (Var 25 + Var 26 / Num (2#1)) / (Site 0 * Site 0 * Site 0 * Site 0);
    Num (-6#1) * (Var 25 + Var 26 / Num (2#1)) / (Site 0 * Site 0 * Site 0 * Site 0);
    Num (-6#1) * (Var 25 + Var 26 / Num (2#1)) / (Site 0 * Site 0 * Site 0 * Site 0);
    Num (-6#1) * (Var 25 + Var 26 / Num (2#1)) / (Site 0 * Site 0 * Site 0 * Site 0);
    Num (-6#1) * (Var 25 + Var 26 / Num (2#1)) / (Site 0 * Site 0 * Site 0 * Site 0) + Num (2#1) / (Site 0 * Site 0 * Site 0);
    Num (-6#1) * (Var 25 + Var 26 / Num (2#1)) / (Site 0 * Site 0 * Site 0 * Site 0) + Num (1#1) / (Site 0 * Site 0 * Site 0)];
    [Num (-6#1) * (Var 25 + Var 26 / Num (2#1)) / (Site 0 * Site 0 * Site 0 * Site 0);
    Num (-6#1) * (Var 25 + Var 26 / Num (2#1)) / (Site 0 * Site 0 * Site 0 * Site 0);
    Num (-6#1) * (Var 25 + Var 26 / Num (2#1)) / (Site 0 * Site 0 * Site 0 * Site 0);
    Num (-6#1) * (Var 25 + Var 26 / Num (2#1)) / (Site 0 * Site 0 * Site 0 * Site 0);
    Num (-6#1) * (Var 25 + Var 26 / Num (2#1)) / (Site 0 * Site 0 * Site 0 * Site 0);
    Num (-6#1) * (Var 25 + Var 26 / Num (2#1)) / (Site 0 * Site 0 * Site 0 * Site 0) + Num (2#1) / (Site 0 * Site 0 * Site 0);
    Num (-6#1) * (Var 25 + Var 26 / Num (2#1)) / (Site 0 * Site 0 * Site 0 * Site 0) + Num (1#1) / (Site 0 * Site 0 * Site 0)];
    [Num (-6#1) * (Var 25 + Var 26 / Num (2#1)) / (Site 0 * Site 0 * Site 0 * Site 0) + Num (2#1) / (Site 0 * Site 0 * Site 0);
    Num (-6#1) * (Var 25 + Var 26 / Num (2#1)) / (Site 0 * Site 0 * Site 0 * Site 0) + Num (2#1) / (Site 0 * Site 0 * Site 0);
    Num (-6#1) * (Var 25 + Var 26 / Num (2#1)) / (Site 0 * Site 0 * Site 0 * Site 0) + Num (2#1) / (Site 0 * Site 0 * Site 0);
    Num (-6#1) * (Var 25 + Var 26 / Num (2#1)) / (Site 0 * Site 0 * Site 0 * Site 0) + Num (2#1) / (Site 0 * Site 0 * Site 0);
    Num (-6#1) * (Var 25 + Var 26 / Num (2#1)) / (Site 0 * Site 0 * Site 0 * Site 0) + Num (2#1) / (Site 0 * Site 0 * Site 0);
    Num (-6#1) * (Var 25 + Var 26 / Num (2#1)) / (Site 0 * Site 0 * Site 0 * Site 0) + Num (2#1) / (Site 0 * Site 0 * Site 0) + Num (2#1) / (Site 0 * Site 0 * Site 0);
    Num (-6#1) * (Var 25 + Var 26 / Num (2#1)) / (Site 0 * Site 0 * Site 0 * Site 0) + Num (2#1) / (Site 0 * Site 0 * Site 0) + Num (1#1) / (Site 0 * Site 0 * Site 0)];
    [Num (-6#1) * (Var 25 + Var 26 / Num (2#1)) / (Site 0 * Site 0 * Site 0 * Site 0) + Num (1#1) / (Site 0 * Site 0 * Site 0);
    Num (-6#1) * (Var 25 + Var 26 / Num (2#1)) / (Site 0 * Site 0 * Site 0 * Site 0) + Num (1#1) / (Site 0 * Site 0 * Site 0);
    Num (-6#1) * (Var 25 + Var 26 / Num (2#1)) / (Site 0 * Site 0 * Site 0 * Site 0) + Num (1#1) / (Site 0 * Site 0 * Site 0);
    Num (-6#1) * (Var 25 + Var 26 / Num (2#1)) / (Site 0 * Site 0 * Site 0 * Site 0) + Num (1#1) / (Site 0 * Site 0 * Site 0);
    Num (-6#1) * (Var 25 + Var 26 / Num (2#1)) / (Site 0 * Site 0 * Site 0 * Site 0) + Num (1#1) / (Site 0 * Site 0 * Site 0);
    Num (-6#1) * (Var 25 + Var 26 / Num (2#1)) / (Site 0 * Site 0 * Site 0 * Site 0) + Num (2#1) / (Site 0 * Site 0 * Site 0) + Num (1#1) / (Site 0 * Site 0 * Site 0);
    Num (-6#1) * (Var 25 + Var 26 / Num (2#1)) / (Site 0 * Site 0 * Site 0 * Site 0) + Num (1#1) / (Site 0 * Site 0 * Site 0) + Num (1#1) / (Site 0 * Site 0 * Site 0)]];
    [[Num (-6#1) * (Var 25 + Var 26 / Num (2#1)) / (Site 0 * Site 0 * Site 0 * Site 0);
    Num (-6#1) * (Var 25 + Var 26 / Num (2#1)) / (Site 0 * Site 0 * Site 0 * Site 0);
    Num (-6#1) * (Var 25 + Var 26 / Num (2#1)) / (Site 0 * Site 0 * Site 0 * Site 0);
    Num (-6#1) * (Var 25 + Var 26 / Num (2#1)) / (Site 0 * Site 0 * Site 0 * Site 0);
    Num (-6#1) * (Var 25 + Var 26 / Num (2#1)) / (Site 0 * Site 0 * Site 0 * Site 0);
    Num (-6#1) * (Var 25 + Var 26 / Num (2#1)) / (Site 0 * Site 0 * Site 0 * Site 0) + Num (2#1) / (Site 0 * Site 0 * Site 0);
    Num (-6#1) * (Var 25 + Var 26 / Num (2#1)) / (Site 0 * Site 0 * Site 0 * Site 0) + Num (1#1) / (Site 0 * Site 0 * Site 0)];
    [Num (-6#1) * (Var 25 + Var 26 / Num (2#1)) / (Site 0 * Site 0 * Site 0 * Site 0);
    Num (-6#1) * (Var 25 + Var 26 / Num (2#1)) / (Site 0 * Site 0 * Site 0 * Site 0);
    Num (-6#1) * (Var 25 + Var 26 / Num (2#1)) / (Site 0 * Site 0 * Site 0 * Site 0);
    Num (-6#1) * (Var 25 + Var 26 / Num (2#1)) / (Site 0 * Site 0 * Site 0 * Site 0);
    Num (-6#1) * (Var 25 + Var 26 / Num (2#1)) / (Site 0 * Site 0 * Site 0 * Site 0);
    Num (-6#1) * (Var 25 + Var 26 / Num (2#1)) / (Site 0 * Site 0 * Site 0 * Site 0) + Num (2#1) / (Site 0 * Site 0 * Site 0);
    Num (-6#1) * (Var 25 + Var 26 / Num (2#1)) / (Site 0 * Site 0 * Site 0 * Site 0) + Num (1#1) / (Site 0 * Site 0 * Site 0)];
    [Num (-6#1) * (Var 25 + Var 26 / Num (2#1)) / (Site 0 * Site 0 * Site 0 * Site 0);
    Num (-6#1) * (Var 25 + Var 26 / Num (2#1)) / (Site 0 * Site 0 * Site 0 * Site 0);
    Num (-6#1) * (Var 25 + Var 26 / Num (2#1)) / (Site 0 * Site 0 * Site 0 * Site 0);
    Num (-6#1) * (Var 25 + Var 26 / Num (2#1)) / (Site 0 * Site 0 * Site 0 * Site 0);
    Num (-6#1) * (Var 25 + Var 26 / Num (2#1)) / (Site 0 * Site 0 * Site 0 * Site 0);
    Num (-6#1) * (Var 25 + Var 26 / Num (2#1)) / (Site 0 * Site 0 * Site 0 * Site 0) + Num (2#1) / (Site 0 * Site 0 * Site 0);
    Num (-6#1) * (Var 25 + Var 26 / Num (2#1)) / (Site 0 * Site 0 * Site 0 * Site 0) + Num (1#1) / (Site 0 * Site 0 * Site 0)];
    [Num (-6#1) * (Var 25 + Var 26 / Num (2#1)) / (Site 0 * Site 0 * Site 0 * Site 0);
    Num (-6#1) * (Var 25 + Var 26 / Num (2#1)) / (Site 0 * Site 0 * Site 0 * Site 0);
    Num (-6#1) * (Var 25 + Var 26 / Num (2#1)) / (Site 0 * Site 0 * Site 0 * Site 0);
    Num (-6#1) * (Var 25 + Var 26 / Num (2#1)) / (Site 0 * Site 0 * Site 0 * Site 0);
    Num (-6#1) * (Var 25 + Var 26 / Num (2#1)) / (Site 0 * Site 0 * Site 0 * Site 0);
    Num (-6#1) * (Var 25 + Var 26 / Num (2#1)) / (Site 0 * Site 0 * Site 0 * Site 0) + Num (2#1) / (Site 0 * Site 0 * Site 0);
    Num (-6#1) * (Var 25 + Var 26 / Num (2#1)) / (Site 0 * Site 0 * Site 0 * Site 0) + Num (1#1) / (Site 0 * Site 0 * Site 0)];
    [Num (-6#1) * (Var 25 + Var 26 / Num (2#1)) / (Site 0 * Site 0 * Site 0 * Site 0);
    Num (-6#1) * (Var 25 + Var 26 / Num (2#1)) / (Site 0 * Site 0 * Site 0 * Site 0);
    Num (-6#1) * (Var 25 + Var 26 / Num (2#1)) / (Site 0 * Site 0 * Site 0 * Site 0);
    Num (-6#1) * (Var 25 + Var 26 / Num (2#1)) / (Site 0 * Site 0 * Site 0 * Site 0);
    Num (-6#1) * (Var 25 + Var 26 / Num (2#1)) / (Site 0 * Site 0 * Site 0 * Site 0);
    Num (-6#1) * (Var 25 + Var 26 / Num (2#1)) / (Site 0 * Site 0 * Site 0 * Site 0) + Num (2#1) / (Site 0 * Site 0 * Site 0);
    Num (-6#1) * (Var 25 + Var 26 / Num (2#1)) / (Site 0 * Site 0 * Site 0 * Site 0) + Num (1#1) / (Site 0 * Site 0 * Site 0)];
    [Num (-6#1) * (Var 25 + Var 26 / Num (2#1)) / (Site 0 * Site 0 * Site 0 * Site 0) + Num (2#1) / (Site 0 * Site 0 * Site 0);
    Num (-6#1) * (Var 25 + Var 26 / Num (2#1)) / (Site 0 * Site 0 * Site 0 * Site 0) + Num (2#1) / (Site 0 * Site 0 * Site 0);
    Num (-6#1) * (Var 25 + Var 26 / Num (2#1)) / (Site 0 * Site 0 * Site 0 * Site 0) + Num (2#1) / (Site 0 * Site 0 * Site 0);
    Num (-6#1) * (Var 25 + Var 26 / Num (2#1)) / (Site 0 * Site 0 * Site 0 * Site 0) + Num (2#1) / (Site 0 * Site 0 * Site 0);
    Num (-6#1) * (Var 25 + Var 26 / Num (2#1)) / (Site 0 * Site 0 * Site 0 * Site 0) + Num (2#1) / (Site 0 * Site 0 * Site 0);
    Num (-6#1) * (Var 25 + Var 26 / Num (2#1)) / (Site 0 * Site 0 * Site 0 * Site 0) + Num (2#1) / (Site 0 * Site 0 * Site 0) + Num (2#1) / (Site 0 * Site 0 * Site 0);
    Num (-6#1) * (Var 25 + Var 26 / Num (2#1)) / (Site 0 * Site 0 * Site 0 * Site 0) + Num (2#1) / (Site 0 * Site 0 * Site 0) + Num (1#1) / (Site 0 * Site 0 * Site 0)];
    [Num (-6#1) * (Var 25 + Var 26 / Num (2#1)) / (Site 0 * Site 0 * Site 0 * Site 0) + Num (1#1) / (Site 0 * Site 0 * Site 0);
    Num (-6#1) * (Var 25 + Var 26 / Num (2#1)) / (Site 0 * Site 0 * Site 0 * Site 0) + Num (1#1) / (Site 0 * Site 0 * Site 0);
    Num (-6#1) * (Var 25 + Var 26 / Num (2#1)) / (Site 0 * Site 0 * Site 0 * Site 0) + Num (1#1) / (Site 0 * Site 0 * Site 0);
    Num (-6#1) * (Var 25 + Var 26 / Num (2#1)) / (Site 0 * Site 0 * Site 0 * Site 0) + Num (1#1) / (Site 0 * Site 0 * Site 0);
    Num (-6#1) * (Var 25 + Var 26 / Num (2#1)) / (Site 0 * Site 0 * Site 0 * Site 0) + Num (1#1) / (Site 0 * Site 0 * Site 0);
    Num (-6#1) * (Var 25 + Var 26 / Num (2#1)) / (Site 0 * Site 0 * Site 0 * Site 0) + Num (2#1) / (Site 0 * Site 0 * Site 0) + Num (1#1) / (Site 0 * Site 0 * Site 0);
    Num (-6#1) * (Var 25 + Var 26 / Num (2#1)) / (Site 0 * Site 0 * Site 0 * Site 0) + Num (1#1) / (Site 0 * Site 0 * Site 0) + Num (1#1) / (Site 0 * Site 0 * Site 0)]];
    [[Num (-6#1) * (Var 25 + Var 26 / Num (2#1)) / (Site 0 * Site 0 * Site 0 * Site 0);
    Num (-6#1) * (Var 25 + Var 26 / Num (2#1)) / (Site 0 * Site 0 * Site 0 * Site 0);
    Num (-6#1) * (Var 25 + Var 26 / Num (2#1)) / (Site 0 * Site 0 * Site 0 * Site 0);
    Num (-6#1) * (Var 25 + Var 26 / Num (2#1)) / (Site 0 * Site 0 * Site 0 * Site 0);
    Num (-6#1) * (Var 25 + Var 26 / Num (2#1)) / (Site 0 * Site 0 * Site 0 * Site 0);
    Num (-6#1) * (Var 25 + Var 26 / Num (2#1)) / (Site 0 * Site 0 * Site 0 * Site 0) + Num (2#1) / (Site 0 * Site 0 * Site 0);
    Num (-6#1) * (Var 25 + Var 26 / Num (2#1)) / (Site 0 * Site 0 * Site 0 * Site 0) + Num (1#1) / (Site 0 * Site 0 * Site 0)];
    [Num (-6#1) * (Var 25 + Var 26 / Num (2#1)) / (Site 0 * Site 0 * Site 0 * Site 0);
    Num (-6#1) * (Var 25 + Var 26 / Num (2#1)) / (Site 0 * Site 0 * Site 0 * Site 0);
    Num (-6#1) * (Var 25 + Var 26 / Num (2#1)) / (Site 0 * Site 0 * Site 0 * Site 0);
    Num (-6#1) * (Var 25 + Var 26 / Num (2#1)) / (Site 0 * Site 0 * Site 0 * Site 0);
    Num (-6#1) * (Var 25 + Var 26 / Num (2#1)) / (Site 0 * Site 0 * Site 0 * Site 0);
    Num (-6#1) * (Var 25 + Var 26 / Num (2#1)) / (Site 0 * Site 0 * Site 0 * Site 0) + Num (2#1) / (Site 0 * Site 0 * Site 0);
    Num (-6#1) * (Var 25 + Var 26 / Num (2#1)) / (Site 0 * Site 0 * Site 0 * Site 0) + Num (1#1) / (Site 0 * Site 0 * Site 0)];
    [Num (-6#1) * (Var 25 + Var 26 / Num (2#1)) / (Site 0 * Site 0 * Site 0 * Site 0);
    Num (-6#1) * (Var 25 + Var 26 / Num (2#1)) / (Site 0 * Site 0 * Site 0 * Site 0);
    Num (-6#1) * (Var 25 + Var 26 / Num (2#1)) / (Site 0 * Site 0 * Site 0 * Site 0);
    Num (-6#1) * (Var 25 + Var 26 / Num (2#1)) / (Site 0 * Site 0 * Site 0 * Site 0);
    Num (-6#1) * (Var 25 + Var 26 / Num (2#1)) / (Site 0 * Site 0 * Site 0 * Site 0);
    Num (-6#1) * (Var 25 + Var 26 / Num (2#1)) / (Site 0 * Site 0 * Site 0 * Site 0) + Num (2#1) / (Site 0 * Site 0 * Site 0);
    Num (-6#1) * (Var 25 + Var 26 / Num (2#1)) / (Site 0 * Site 0 * Site 0 * Site 0) + Num (1#1) / (Site 0 * Site 0 * Site 0)];
    [Num (-6#1) * (Var 25 + Var 26 / Num (2#1)) / (Site 0 * Site 0 * Site 0 * Site 0);
    Num (-6#1) * (Var 25 + Var 26 / Num (2#1)) / (Site 0 * Site 0 * Site 0 * Site 0);
    Num (-6#1) * (Var 25 + Var 26 / Num (2#1)) / (Site 0 * Site 0 * Site 0 * Site 0);
    Num (-6#1) * (Var 25 + Var 26 / Num (2#1)) / (Site 0 * Site 0 * Site 0 * Site 0);
    Num (-6#1) * (Var 25 + Var 26 / Num (2#1)) / (Site 0 * Site 0 * Site 0 * Site 0);
    Num (-6#1) * (Var 25 + Var 26 / Num (2#1)) / (Site 0 * Site 0 * Site 0 * Site 0) + Num (2#1) / (Site 0 * Site 0 * Site 0);
    Num (-6#1) * (Var 25 + Var 26 / Num (2#1)) / (Site 0 * Site 0 * Site 0 * Site 0) + Num (1#1) / (Site 0 * Site 0 * Site 0)];
    [Num (-6#1) * (Var 25 + Var 26 / Num (2#1)) / (Site 0 * Site 0 * Site 0 * Site 0);
    Num (-6#1) * (Var 25 + Var 26 / Num (2#1)) / (Site 0 * Site 0 * Site 0 * Site 0);
    Num (-6#1) * (Var 25 + Var 26 / Num (2#1)) / (Site 0 * Site 0 * Site 0 * Site 0);
    Num (-6#1) * (Var 25 + Var 26 / Num (2#1)) / (Site 0 * Site 0 * Site 0 * Site 0);
    Num (-6#1) * (Var 25 + Var 26 / Num (2#1)) / (Site 0 * Site 0 * Site 0 * Site 0);
    Num (-6#1) * (Var 25 + Var 26 / Num (2#1)) / (Site 0 * Site 0 * Site 0 * Site 0) + Num (2#1) / (Site 0 * Site 0 * Site 0);
    Num (-6#1) * (Var 25 + Var 26 / Num (2#1)) / (Site 0 * Site 0 * Site 0 * Site 0) + Num (1#1) / (Site 0 * Site 0 * Site 0)];
    [Num (-6#1) * (Var 25 + Var 26 / Num (2#1)) / (Site 0 * Site 0 * Site 0 * Site 0) + Num (2#1) / (Site 0 * Site 0 * Site 0);
    Num (-6#1) * (Var 25 + Var 26 / Num (2#1)) / (Site 0 * Site 0 * Site 0 * Site 0) + Num (2#1) / (Site 0 * Site 0 * Site 0);
    Num (-6#1) * (Var 25 + Var 26 / Num (2#1)) / (Site 0 * Site 0 * Site 0 * Site 0) + Num (2#1) / (Site 0 * Site 0 * Site 0);
    Num (-6#1) * (Var 25 + Var 26 / Num (2#1)) / (Site 0 * Site 0 * Site 0 * Site 0) + Num (2#1) / (Site 0 * Site 0 * Site 0);
    Num (-6#1) * (Var 25 + Var 26 / Num (2#1)) / (Site 0 * Site 0 * Site 0 * Site 0) + Num (2#1) / (Site 0 * Site 0 * Site 0);
    Num (-6#1) * (Var 25 + Var 26 / Num (2#1)) / (Site 0 * Site 0 * Site 0 * Site 0) + Num (2#1) / (Site 0 * Site 0 * Site 0) + Num (2#1) / (Site 0 * Site 0 * Site 0);
    Num (-6#1) * (Var 25 + Var 26 / Num (2#1)) / (Site 0 * Site 0 * Site 0 * Site 0) + Num (2#1) / (Site 0 * Site 0 * Site 0) + Num (1#1) / (Site 0 * Site 0 * Site 0)];
    [Num (-6#1) * (Var 25 + Var 26 / Num (2#1)) / (Site 0 * Site 0 * Site 0 * Site 0) + Num (1#1) / (Site 0 * Site 0 * Site 0);
    Num (-6#1) * (Var 25 + Var 26 / Num (2#1)) / (Site 0 * Site 0 * Site 0 * Site 0) + Num (1#1) / (Site 0 * Site 0 * Site 0);
    Num (-6#1) * (Var 25 + Var 26 / Num (2#1)) / (Site 0 * Site 0 * Site 0 * Site 0) + Num (1#1) / (Site 0 * Site 0 * Site 0);
    Num (-6#1) * (Var 25 + Var 26 / Num (2#1)) / (Site 0 * Site 0 * Site 0 * Site 0) + Num (1#1) / (Site 0 * Site 0 * Site 0);
    Num (-6#1) * (Var 25 + Var 26 / Num (2#1)) / (Site 0 * Site 0 * Site 0 * Site 0) + Num (1#1) / (Site 0 * Site 0 * Site 0);
    Num (-6#1) * (Var 25 + Var 26 / Num (2#1)) / (Site 0 * Site 0 * Site 0 * Site 0) + Num (2#1) / (Site 0 * Site 0 * Site 0) + Num (1#1) / (Site 0 * Site 0 * Site 0);
    Num (-6#1) * (Var 25 + Var 26 / Num (2#1)) / (Site 0 * Site 0 * Site 0 * Site 0) + Num (1#1) / (Site 0 * Site 0 * Site 0) + Num (1#1) / (Site 0 * Site 0 * Site 0)]];
    [[Num (-6#1) * (Var 25 + Var 26 / Num (2#1)) / (Site 0 * Site 0 * Site 0 * Site 0);
    Num (-6#1) * (Var 25 + Var 26 / Num (2#1)) / (Site 0 * Site 0 * Site 0 * Site 0);
    Num (-6#1) * (Var 25 + Var 26 / Num (2#1)) / (Site 0 * Site 0 * Site 0 * Site 0);
    Num (-6#1) * (Var 25 + Var 26 / Num (2#1)) / (Site 0 * Site 0 * Site 0 * Site 0);
    Num (-6#1) * (Var 25 + Var 26 / Num (2#1)) / (Site 0 * Site 0 * Site 0 * Site 0);
    Num (-6#1) * (Var 25 + Var 26 / Num (2#1)) / (Site 0 * Site 0 * Site 0 * Site 0) + Num (2#1) / (Site 0 * Site 0 * Site 0);
    Num (-6#1) * (Var 25 + Var 26 / Num (2#1)) / (Site 0 * Site 0 * Site 0 * Site 0) + Num (1#1) / (Site 0 * Site 0 * Site 0)];
    [Num (-6#1) * (Var 25 + Var 26 / Num (2#1)) / (Site 0 * Site 0 * Site 0 * Site 0);
    Num (-6#1) * (Var 25 + Var 26 / Num (2#1)) / (Site 0 * Site 0 * Site 0 * Site 0);
    Num (-6#1) * (Var 25 + Var 26 / Num (2#1)) / (Site 0 * Site 0 * Site 0 * Site 0);
    Num (-6#1) * (Var 25 + Var 26 / Num (2#1)) / (Site 0 * Site 0 * Site 0 * Site 0);
    Num (-6#1) * (Var 25 + Var 26 / Num (2#1)) / (Site 0 * Site 0 * Site 0 * Site 0);
    Num (-6#1) * (Var 25 + Var 26 / Num (2#1)) / (Site 0 * Site 0 * Site 0 * Site 0) + Num (2#1) / (Site 0 * Site 0 * Site 0);
    Num (-6#1) * (Var 25 + Var 26 / Num (2#1)) / (Site 0 * Site 0 * Site 0 * Site 0) + Num (1#1) / (Site 0 * Site 0 * Site 0)];
    [Num (-6#1) * (Var 25 + Var 26 / Num (2#1)) / (Site 0 * Site 0 * Site 0 * Site 0);
    Num (-6#1) * (Var 25 + Var 26 / Num (2#1)) / (Site 0 * Site 0 * Site 0 * Site 0);
    Num (-6#1) * (Var 25 + Var 26 / Num (2#1)) / (Site 0 * Site 0 * Site 0 * Site 0);
    Num (-6#1) * (Var 25 + Var 26 / Num (2#1)) / (Site 0 * Site 0 * Site 0 * Site 0);
    Num (-6#1) * (Var 25 + Var 26 / Num (2#1)) / (Site 0 * Site 0 * Site 0 * Site 0);
    Num (-6#1) * (Var 25 + Var 26 / Num (2#1)) / (Site 0 * Site 0 * Site 0 * Site 0) + Num (2#1) / (Site 0 * Site 0 * Site 0);
    Num (-6#1) * (Var 25 + Var 26 / Num (2#1)) / (Site 0 * Site 0 * Site 0 * Site 0) + Num (1#1) / (Site 0 * Site 0 * Site 0)];
    [Num (-6#1) * (Var 25 + Var 26 / Num (2#1)) / (Site 0 * Site 0 * Site 0 * Site 0);
    Num (-6#1) * (Var 25 + Var 26 / Num (2#1)) / (Site 0 * Site 0 * Site 0 * Site 0);
    Num (-6#1) * (Var 25 + Var 26 / Num (2#1)) / (Site 0 * Site 0 * Site 0 * Site 0);
    Num (-6#1) * (Var 25 + Var 26 / Num (2#1)) / (Site 0 * Site 0 * Site 0 * Site 0);
    Num (-6#1) * (Var 25 + Var 26 / Num (2#1)) / (Site 0 * Site 0 * Site 0 * Site 0);
    Num (-6#1) * (Var 25 + Var 26 / Num (2#1)) / (Site 0 * Site 0 * Site 0 * Site 0) + Num (2#1) / (Site 0 * Site 0 * Site 0);
    Num (-6#1) * (Var 25 + Var 26 / Num (2#1)) / (Site 0 * Site 0 * Site 0 * Site 0) + Num (1#1) / (Site 0 * Site 0 * Site 0)];
    [Num (-6#1) * (Var 25 + Var 26 / Num (2#1)) / (Site 0 * Site 0 * Site 0 * Site 0);
    Num (-6#1) * (Var 25 + Var 26 / Num (2#1)) / (Site 0 * Site 0 * Site 0 * Site 0);
    Num (-6#1) * (Var 25 + Var 26 / Num (2#1)) / (Site 0 * Site 0 * Site 0 * Site 0);
    Num (-6#1) * (Var 25 + Var 26 / Num (2#1)) / (Site 0 * Site 0 * Site 0 * Site 0);
    Num (-6#1) * (Var 25 + Var 26 / Num (2#1)) / (Site 0 * Site 0 * Site 0 * Site 0);
    Num (-6#1) * (Var 25 + Var 26 / Num (2#1)) / (Site 0 * Site 0 * Site 0 * Site 0) + Num (2#1) / (Site 0 * Site 0 * Site 0);
    Num (-6#1) * (Var 25 + Var 26 / Num (2#1)) / (Site 0 * Site 0 * Site 0 * Site 0) + Num (1#1) / (Site 0 * Site 0 * Site 0)];
    [Num (-6#1) * (Var 25 + Var 26 / Num (2#1)) / (Site 0 * Site 0 * Site 0 * Site 0) + Num (2#1) / (Site 0 * Site 0 * Site 0);
    Num (-6#1) * (Var 25 + Var 26 / Num (2#1)) / (Site 0 * Site 0 * Site 0 * Site 0) + Num (2#1) / (Site 0 * Site 0 * Site 0);
    Num (-6#1) * (Var 25 + Var 26 / Num (2#1)) / (Site 0 * Site 0 * Site 0 * Site 0) + Num (2#1) / (Site 0 * Site 0 * Site 0);
    Num (-6#1) * (Var 25 + Var 26 / Num (2#1)) / (Site 0 * Site 0 * Site 0 * Site 0) + Num (2#1) / (Site 0 * Site 0 * Site 0);
    Num (-6#1) * (Var 25 + Var 26 / Num (2#1)) / (Site 0 * Site 0 * Site 0 * Site 0) + Num (2#1) / (Site 0 * Site 0 * Site 0);
    Num (-6#1) * (Var 25 + Var 26 / Num (2#1)) / (Site 0 * Site 0 * Site 0 * Site 0) + Num (2#1) / (Site 0 * Site 0 * Site 0) + Num (2#1) / (Site 0 * Site 0 * Site 0);
    Num (-6#1) * (Var 25 + Var 26 / Num (2#1)) / (Site 0 * Site 0 * Site 0 * Site 0) + Num (2#1) / (Site 0 * Site 0 * Site 0) + Num (1#1) / (Site 0 * Site 0 * Site 0)];
    [Num (-6#1) * (Var 25 + Var 26 / Num (2#1)) / (Site 0 * Site 0 * Site 0 * Site 0) + Num (1#1) / (Site 0 * Site 0 * Site 0);
    Num (-6#1) * (Var 25 + Var 26 / Num (2#1)) / (Site 0 * Site 0 * Site 0 * Site 0) + Num (1#1) / (Site 0 * Site 0 * Site 0);
    Num (-6#1) * (Var 25 + Var 26 / Num (2#1)) / (Site 0 * Site 0 * Site 0 * Site 0) + Num (1#1) / (Site 0 * Site 0 * Site 0);
    Num (-6#1) * (Var 25 + Var 26 / Num (2#1)) / (Site 0 * Site 0 * Site 0 * Site 0) + Num (1#1) / (Site 0 * Site 0 * Site 0);
    Num (-6#1) * (Var 25 + Var 26 / Num (2#1)) / (Site 0 * Site 0 * Site 0 * Site 0) + Num (1#1) / (Site 0 * Site 0 * Site 0);
    Num (-6#1) * (Var 25 + Var 26 / Num (2#1)) / (Site 0 * Site 0 * Site 0 * Site 0) + Num (2#1) / (Site 0 * Site 0 * Site 0) + Num (1#1) / (Site 0 * Site 0 * Site 0);
    Num (-6#1) * (Var 25 + Var 26 / Num (2#1)) / (Site 0 * Site 0 * Site 0 * Site 0) + Num (1#1) / (Site 0 * Site 0 * Site 0) + Num (1#1) / (Site 0 * Site 0 * Site 0)]];
    [[Num (-6#1) * (Var 25 + Var 26 / Num (2#1)) / (Site 0 * Site 0 * Site 0 * Site 0) + Num (2#1) / (Site 0 * Site 0 * Site 0);
    Num (-6#1) * (Var 25 + Var 26 / Num (2#1)) / (Site 0 * Site 0 * Site 0 * Site 0) + Num (2#1) / (Site 0 * Site 0 * Site 0);
    Num (-6#1) * (Var 25 + Var 26 / Num (2#1)) / (Site 0 * Site 0 * Site 0 * Site 0) + Num (2#1) / (Site 0 * Site 0 * Site 0);
    Num (-6#1) * (Var 25 + Var 26 / Num (2#1)) / (Site 0 * Site 0 * Site 0 * Site 0) + Num (2#1) / (Site 0 * Site 0 * Site 0);
    Num (-6#1) * (Var 25 + Var 26 / Num (2#1)) / (Site 0 * Site 0 * Site 0 * Site 0) + Num (2#1) / (Site 0 * Site 0 * Site 0);
    Num (-6#1) * (Var 25 + Var 26 / Num (2#1)) / (Site 0 * Site 0 * Site 0 * Site 0) + Num (2#1) / (Site 0 * Site 0 * Site 0) + Num (2#1) / (Site 0 * Site 0 * Site 0);
    Num (-6#1) * (Var 25 + Var 26 / Num (2#1)) / (Site 0 * Site 0 * Site 0 * Site 0) + Num (2#1) / (Site 0 * Site 0 * Site 0) + Num (1#1) / (Site 0 * Site 0 * Site 0)];
    [Num (-6#1) * (Var 25 + Var 26 / Num (2#1)) / (Site 0 * Site 0 * Site 0 * Site 0) + Num (2#1) / (Site 0 * Site 0 * Site 0);
    Num (-6#1) * (Var 25 + Var 26 / Num (2#1)) / (Site 0 * Site 0 * Site 0 * Site 0) + Num (2#1) / (Site 0 * Site 0 * Site 0);
    Num (-6#1) * (Var 25 + Var 26 / Num (2#1)) / (Site 0 * Site 0 * Site 0 * Site 0) + Num (2#1) / (Site 0 * Site 0 * Site 0);
    Num (-6#1) * (Var 25 + Var 26 / Num (2#1)) / (Site 0 * Site 0 * Site 0 * Site 0) + Num (2#1) / (Site 0 * Site 0 * Site 0);
    Num (-6#1) * (Var 25 + Var 26 / Num (2#1)) / (Site 0 * Site 0 * Site 0 * Site 0) + Num (2#1) / (Site 0 * Site 0 * Site 0);
    Num (-6#1) * (Var 25 + Var 26 / Num (2#1)) / (Site 0 * Site 0 * Site 0 * Site 0) + Num (2#1) / (Site 0 * Site 0 * Site 0) + Num (2#1) / (Site 0 * Site 0 * Site 0);
    Num (-6#1) * (Var 25 + Var 26 / Num (2#1)) / (Site 0 * Site 0 * Site 0 * Site 0) + Num (2#1) / (Site 0 * Site 0 * Site 0) + Num (1#1) / (Site 0 * Site 0 * Site 0)];
    [Num (-6#1) * (Var 25 + Var 26 / Num (2#1)) / (Site 0 * Site 0 * Site 0 * Site 0) + Num (2#1) / (Site 0 * Site 0 * Site 0);
    Num (-6#1) * (Var 25 + Var 26 / Num (2#1)) / (Site 0 * Site 0 * Site 0 * Site 0) + Num (2#1) / (Site 0 * Site 0 * Site 0);
    Num (-6#1) * (Var 25 + Var 26 / Num (2#1)) / (Site 0 * Site 0 * Site 0 * Site 0) + Num (2#1) / (Site 0 * Site 0 * Site 0);
    Num (-6#1) * (Var 25 + Var 26 / Num (2#1)) / (Site 0 * Site 0 * Site 0 * Site 0) + Num (2#1) / (Site 0 * Site 0 * Site 0);
    Num (-6#1) * (Var 25 + Var 26 / Num (2#1)) / (Site 0 * Site 0 * Site 0 * Site 0) + Num (2#1) / (Site 0 * Site 0 * Site 0);
    Num (-6#1) * (Var 25 + Var 26 / Num (2#1)) / (Site 0 * Site 0 * Site 0 * Site 0) + Num (2#1) / (Site 0 * Site 0 * Site 0) + Num (2#1) / (Site 0 * Site 0 * Site 0);
    Num (-6#1) * (Var 25 + Var 26 / Num (2#1)) / (Site 0 * Site 0 * Site 0 * Site 0) + Num (2#1) / (Site 0 * Site 0 * Site 0) + Num (1#1) / (Site 0 * Site 0 * Site 0)];
    [Num (-6#1) * (Var 25 + Var 26 / Num (2#1)) / (Site 0 * Site 0 * Site 0 * Site 0) + Num (2#1) / (Site 0 * Site 0 * Site 0);
    Num (-6#1) * (Var 25 + Var 26 / Num (2#1)) / (Site 0 * Site 0 * Site 0 * Site 0) + Num (2#1) / (Site 0 * Site 0 * Site 0);
    Num (-6#1) * (Var 25 + Var 26 / Num (2#1)) / (Site 0 * Site 0 * Site 0 * Site 0) + Num (2#1) / (Site 0 * Site 0 * Site 0);
    Num (-6#1) * (Var 25 + Var 26 / Num (2#1)) / (Site 0 * Site 0 * Site 0 * Site 0) + Num (2#1) / (Site 0 * Site 0 * Site 0);
    Num (-6#1) * (Var 25 + Var 26 / Num (2#1)) / (Site 0 * Site 0 * Site 0 * Site 0) + Num (2#1) / (Site 0 * Site 0 * Site 0);
    Num (-6#1) * (Var 25 + Var 26 / Num (2#1)) / (Site 0 * Site 0 * Site 0 * Site 0) + Num (2#1) / (Site 0 * Site 0 * Site 0) + Num (2#1) / (Site 0 * Site 0 * Site 0);
    Num (-6#1) * (Var 25 + Var 26 / Num (2#1)) / (Site 0 * Site 0 * Site 0 * Site 0) + Num (2#1) / (Site 0 * Site 0 * Site 0) + Num (1#1) / (Site 0 * Site 0 * Site 0)];
    [Num (-6#1) * (Var 25 + Var 26 / Num (2#1)) / (Site 0 * Site 0 * Site 0 * Site 0) + Num (2#1) / (Site 0 * Site 0 * Site 0);
    Num (-6#1) * (Var 25 + Var 26 / Num (2#1)) / (Site 0 * Site 0 * Site 0 * Site 0) + Num (2#1) / (Site 0 * Site 0 * Site 0);
    Num (-6#1) * (Var 25 + Var 26 / Num (2#1)) / (Site 0 * Site 0 * Site 0 * Site 0) + Num (2#1) / (Site 0 * Site 0 * Site 0);
    Num (-6#1) * (Var 25 + Var 26 / Num (2#1)) / (Site 0 * Site 0 * Site 0 * Site 0) + Num (2#1) / (Site 0 * Site 0 * Site 0);
    Num (-6#1) * (Var 25 + Var 26 / Num (2#1)) / (Site 0 * Site 0 * Site 0 * Site 0) + Num (2#1) / (Site 0 * Site 0 * Site 0);
    Num (-6#1) * (Var 25 + Var 26 / Num (2#1)) / (Site 0 * Site 0 * Site 0 * Site 0) + Num (2#1) / (Site 0 * Site 0 * Site 0) + Num (2#1) / (Site 0 * Site 0 * Site 0);
    Num (-6#1) * (Var 25 + Var 26 / Num (2#1)) / (Site 0 * Site 0 * Site 0 * Site 0) + Num (2#1) / (Site 0 * Site 0 * Site 0) + Num (1#1) / (Site 0 * Site 0 * Site 0)];
    [Num (-6#1) * (Var 25 + Var 26 / Num (2#1)) / (Site 0 * Site 0 * Site 0 * Site 0) + Num (2#1) / (Site 0 * Site 0 * Site 0) + Num (2#1) / (Site 0 * Site 0 * Site 0);
    Num (-6#1) * (Var 25 + Var 26 / Num (2#1)) / (Site 0 * Site 0 * Site 0 * Site 0) + Num (2#1) / (Site 0 * Site 0 * Site 0) + Num (2#1) / (Site 0 * Site 0 * Site 0);
    Num (-6#1) * (Var 25 + Var 26 / Num (2#1)) / (Site 0 * Site 0 * Site 0 * Site 0) + Num (2#1) / (Site 0 * Site 0 * Site 0) + Num (2#1) / (Site 0 * Site 0 * Site 0);
    Num (-6#1) * (Var 25 + Var 26 / Num (2#1)) / (Site 0 * Site 0 * Site 0 * Site 0) + Num (2#1) / (Site 0 * Site 0 * Site 0) + Num (2#1) / (Site 0 * Site 0 * Site 0);
    Num (-6#1) * (Var 25 + Var 26 / Num (2#1)) / (Site 0 * Site 0 * Site 0 * Site 0) + Num (2#1) / (Site 0 * Site 0 * Site 0) + Num (2#1) / (Site 0 * Site 0 * Site 0);
    Num (-6#1) * (Var 25 + Var 26 / Num (2#1)) / (Site 0 * Site 0 * Site 0 * Site 0) + Num (2#1) / (Site 0 * Site 0 * Site 0) + Num (2#1) / (Site 0 * Site 0 * Site 0) + Num (2#1) / (Site 0 * Site 0 * Site 0);
    Num (-6#1) * (Var 25 + Var 26 / Num (2#1)) / (Site 0 * Site 0 * Site 0 * Site 0) + Num (2#1) / (Site 0 * Site 0 * Site 0) + Num (2#1) / (Site 0 * Site 0 * Site 0) + Num (1#1) / (Site 0 * Site 0 * Site 0)];
    [Num (-6#1) * (Var 25 + Var 26 / Num (2#1)) / (Site 0 * Site 0 * Site 0 * Site 0) + Num (2#1) / (Site 0 * Site 0 * Site 0) + Num (1#1) / (Site 0 * Site 0 * Site 0);
    Num (-6#1) * (Var 25 + Var 26 / Num (2#1)) / (Site 0 * Site 0 * Site 0 * Site 0) + Num (2#1) / (Site 0 * Site 0 * Site 0) + Num (1#1) / (Site 0 * Site 0 * Site 0);
    Num (-6#1) * (Var 25 + Var 26 / Num (2#1)) / (Site 0 * Site 0 * Site 0 * Site 0) + Num (2#1) / (Site 0 * Site 0 * Site 0) + Num (1#1) / (Site 0 * Site 0 * Site 0);
    Num (-6#1) * (Var 25 + Var 26 / Num (2#1)) / (Site 0 * Site 0 * Site 0 * Site 0) + Num (2#1) / (Site 0 * Site 0 * Site 0) + Num (1#1) / (Site 0 * Site 0 * Site 0);
    Num (-6#1) * (Var 25 + Var 26 / Num (2#1)) / (Site 0 * Site 0 * Site 0 * Site 0) + Num (2#1) / (Site 0 * Site 0 * Site 0) + Num (1#1) / (Site 0 * Site 0 * Site 0);
    Num (-6#1) * (Var 25 + Var 26 / Num (2#1)) / (Site 0 * Site 0 * Site 0 * Site 0) + Num (2#1) / (Site 0 * Site 0 * Site 0) + Num (2#1) / (Site 0 * Site 0 * Site 0) + Num (1#1) / (Site 0 * Site 0 * Site 0);
    Num (-6#1) * (Var 25 + Var 26 / Num (2#1)) / (Site 0 * Site 0 * Site 0 * Site 0) + Num (2#1) / (Site 0 * Site 0 * Site 0) + Num (1#1) / (Site 0 * Site 0 * Site 0) + Num (1#1) / (Site 0 * Site 0 * Site 0)]];
    [[Num (-6#1) * (Var 25 + Var 26 / Num (2#1)) / (Site 0 * Site 0 * Site 0 * Site 0) + Num (1#1) / (Site 0 * Site 0 * Site 0);
    Num (-6#1) * (Var 25 + Var 26 / Num (2#1)) / (Site 0 * Site 0 * Site 0 * Site 0) + Num (1#1) / (Site 0 * Site 0 * Site 0);
    Num (-6#1) * (Var 25 + Var 26 / Num (2#1)) / (Site 0 * Site 0 * Site 0 * Site 0) + Num (1#1) / (Site 0 * Site 0 * Site 0);
    Num (-6#1) * (Var 25 + Var 26 / Num (2#1)) / (Site 0 * Site 0 * Site 0 * Site 0) + Num (1#1) / (Site 0 * Site 0 * Site 0);
    Num (-6#1) * (Var 25 + Var 26 / Num (2#1)) / (Site 0 * Site 0 * Site 0 * Site 0) + Num (1#1) / (Site 0 * Site 0 * Site 0);
    Num (-6#1) * (Var 25 + Var 26 / Num (2#1)) / (Site 0 * Site 0 * Site 0 * Site 0) + Num (2#1) / (Site 0 * Site 0 * Site 0) + Num (1#1) / (Site 0 * Site 0 * Site 0);
    Num (-6#1) * (Var 25 + Var 26 / Num (2#1)) / (Site 0 * Site 0 * Site 0 * Site 0) + Num (1#1) / (Site 0 * Site 0 * Site 0) + Num (1#1) / (Site 0 * Site 0 * Site 0)];
    [Num (-6#1) * (Var 25 + Var 26 / Num (2#1)) / (Site 0 * Site 0 * Site 0 * Site 0) + Num (1#1) / (Site 0 * Site 0 * Site 0);
    Num (-6#1) * (Var 25 + Var 26 / Num (2#1)) / (Site 0 * Site 0 * Site 0 * Site 0) + Num (1#1) / (Site 0 * Site 0 * Site 0);
    Num (-6#1) * (Var 25 + Var 26 / Num (2#1)) / (Site 0 * Site 0 * Site 0 * Site 0) + Num (1#1) / (Site 0 * Site 0 * Site 0);
    Num (-6#1) * (Var 25 + Var 26 / Num (2#1)) / (Site 0 * Site 0 * Site 0 * Site 0) + Num (1#1) / (Site 0 * Site 0 * Site 0);
    Num (-6#1) * (Var 25 + Var 26 / Num (2#1)) / (Site 0 * Site 0 * Site 0 * Site 0) + Num (1#1) / (Site 0 * Site 0 * Site 0);
    Num (-6#1) * (Var 25 + Var 26 / Num (2#1)) / (Site 0 * Site 0 * Site 0 * Site 0) + Num (2#1) / (Site 0 * Site 0 * Site 0) + Num (1#1) / (Site 0 * Site 0 * Site 0);
    Num (-6#1) * (Var 25 + Var 26 / Num (2#1)) / (Site 0 * Site 0 * Site 0 * Site 0) + Num (1#1) / (Site 0 * Site 0 * Site 0) + Num (1#1) / (Site 0 * Site 0 * Site 0)];
    [Num (-6#1) * (Var 25 + Var 26 / Num (2#1)) / (Site 0 * Site 0 * Site 0 * Site 0) + Num (1#1) / (Site 0 * Site 0 * Site 0);
    Num (-6#1) * (Var 25 + Var 26 / Num (2#1)) / (Site 0 * Site 0 * Site 0 * Site 0) + Num (1#1) / (Site 0 * Site 0 * Site 0);
    Num (-6#1) * (Var 25 + Var 26 / Num (2#1)) / (Site 0 * Site 0 * Site 0 * Site 0) + Num (1#1) / (Site 0 * Site 0 * Site 0);
    Num (-6#1) * (Var 25 + Var 26 / Num (2#1)) / (Site 0 * Site 0 * Site 0 * Site 0) + Num (1#1) / (Site 0 * Site 0 * Site 0);
    Num (-6#1) * (Var 25 + Var 26 / Num (2#1)) / (Site 0 * Site 0 * Site 0 * Site 0) + Num (1#1) / (Site 0 * Site 0 * Site 0);
    Num (-6#1) * (Var 25 + Var 26 / Num (2#1)) / (Site 0 * Site 0 * Site 0 * Site 0) + Num (2#1) / (Site 0 * Site 0 * Site 0) + Num (1#1) / (Site 0 * Site 0 * Site 0);
    Num (-6#1) * (Var 25 + Var 26 / Num (2#1)) / (Site 0 * Site 0 * Site 0 * Site 0) + Num (1#1) / (Site 0 * Site 0 * Site 0) + Num (1#1) / (Site 0 * Site 0 * Site 0)];
    [Num (-6#1) * (Var 25 + Var 26 / Num (2#1)) / (Site 0 * Site 0 * Site 0 * Site 0) + Num (1#1) / (Site 0 * Site 0 * Site 0);
    Num (-6#1) * (Var 25 + Var 26 / Num (2#1)) / (Site 0 * Site 0 * Site 0 * Site 0) + Num (1#1) / (Site 0 * Site 0 * Site 0);
    Num (-6#1) * (Var 25 + Var 26 / Num (2#1)) / (Site 0 * Site 0 * Site 0 * Site 0) + Num (1#1) / (Site 0 * Site 0 * Site 0);
    Num (-6#1) * (Var 25 + Var 26 / Num (2#1)) / (Site 0 * Site 0 * Site 0 * Site 0) + Num (1#1) / (Site 0 * Site 0 * Site 0);
    Num (-6#1) * (Var 25 + Var 26 / Num (2#1)) / (Site 0 * Site 0 * Site 0 * Site 0) + Num (1#1) / (Site 0 * Site 0 * Site 0);
    Num (-6#1) * (Var 25 + Var 26 / Num (2#1)) / (Site 0 * Site 0 * Site 0 * Site 0) + Num (2#1) / (Site 0 * Site 0 * Site 0) + Num (1#1) / (Site 0 * Site 0 * Site 0);
    Num (-6#1) * (Var 25 + Var 26 / Num (2#1)) / (Site 0 * Site 0 * Site 0 * Site 0) + Num (1#1) / (Site 0 * Site 0 * Site 0) + Num (1#1) / (Site 0 * Site 0 * Site 0)];
    [Num (-6#1) * (Var 25 + Var 26 / Num (2#1)) / (Site 0 * Site 0 * Site 0 * Site 0) + Num (1#1) / (Site 0 * Site 0 * Site 0);
    Num (-6#1) * (Var 25 + Var 26 / Num (2#1)) / (Site 0 * Site 0 * Site 0 * Site 0) + Num (1#1) / (Site 0 * Site 0 * Site 0);
    Num (-6#1) * (Var 25 + Var 26 / Num (2#1)) / (Site 0 * Site 0 * Site 0 * Site 0) + Num (1#1) / (Site 0 * Site 0 * Site 0);
    Num (-6#1) * (Var 25 + Var 26 / Num (2#1)) / (Site 0 * Site 0 * Site 0 * Site 0) + Num (1#1) / (Site 0 * Site 0 * Site 0);
    Num (-6#1) * (Var 25 + Var 26 / Num (2#1)) / (Site 0 * Site 0 * Site 0 * Site 0) + Num (1#1) / (Site 0 * Site 0 * Site 0);
    Num (-6#1) * (Var 25 + Var 26 / Num (2#1)) / (Site 0 * Site 0 * Site 0 * Site 0) + Num (2#1) / (Site 0 * Site 0 * Site 0) + Num (1#1) / (Site 0 * Site 0 * Site 0);
    Num (-6#1) * (Var 25 + Var 26 / Num (2#1)) / (Site 0 * Site 0 * Site 0 * Site 0) + Num (1#1) / (Site 0 * Site 0 * Site 0) + Num (1#1) / (Site 0 * Site 0 * Site 0)];
    [Num (-6#1) * (Var 25 + Var 26 / Num (2#1)) / (Site 0 * Site 0 * Site 0 * Site 0) + Num (2#1) / (Site 0 * Site 0 * Site 0) + Num (1#1) / (Site 0 * Site 0 * Site 0);
    Num (-6#1) * (Var 25 + Var 26 / Num (2#1)) / (Site 0 * Site 0 * Site 0 * Site 0) + Num (2#1) / (Site 0 * Site 0 * Site 0) + Num (1#1) / (Site 0 * Site 0 * Site 0);
    Num (-6#1) * (Var 25 + Var 26 / Num (2#1)) / (Site 0 * Site 0 * Site 0 * Site 0) + Num (2#1) / (Site 0 * Site 0 * Site 0) + Num (1#1) / (Site 0 * Site 0 * Site 0);
    Num (-6#1) * (Var 25 + Var 26 / Num (2#1)) / (Site 0 * Site 0 * Site 0 * Site 0) + Num (2#1) / (Site 0 * Site 0 * Site 0) + Num (1#1) / (Site 0 * Site 0 * Site 0);
    Num (-6#1) * (Var 25 + Var 26 / Num (2#1)) / (Site 0 * Site 0 * Site 0 * Site 0) + Num (2#1) / (Site 0 * Site 0 * Site 0) + Num (1#1) / (Site 0 * Site 0 * Site 0);
    Num (-6#1) * (Var 25 + Var 26 / Num (2#1)) / (Site 0 * Site 0 * Site 0 * Site 0) + Num (2#1) / (Site 0 * Site 0 * Site 0) + Num (2#1) / (Site 0 * Site 0 * Site 0) + Num (1#1) / (Site 0 * Site 0 * Site 0);
    Num (-6#1) * (Var 25 + Var 26 / Num (2#1)) / (Site 0 * Site 0 * Site 0 * Site 0) + Num (2#1) / (Site 0 * Site 0 * Site 0) + Num (1#1) / (Site 0 * Site 0 * Site 0) + Num (1#1) / (Site 0 * Site 0 * Site 0)];
    [Num (-6#1) * (Var 25 + Var 26 / Num (2#1)) / (Site 0 * Site 0 * Site 0 * Site 0) + Num (1#1) / (Site 0 * Site 0 * Site 0) + Num (1#1) / (Site 0 * Site 0 * Site 0);
    Num (-6#1) * (Var 25 + Var 26 / Num (2#1)) / (Site 0 * Site 0 * Site 0 * Site 0) + Num (1#1) / (Site 0 * Site 0 * Site 0) + Num (1#1) / (Site 0 * Site 0 * Site 0);
    Num (-6#1) * (Var 25 + Var 26 / Num (2#1)) / (Site 0 * Site 0 * Site 0 * Site 0) + Num (1#1) / (Site 0 * Site 0 * Site 0) + Num (1#1) / (Site 0 * Site 0 * Site 0);
    Num (-6#1) * (Var 25 + Var 26 / Num (2#1)) / (Site 0 * Site 0 * Site 0 * Site 0) + Num (1#1) / (Site 0 * Site 0 * Site 0) + Num (1#1) / (Site 0 * Site 0 * Site 0);
    Num (-6#1) * (Var 25 + Var 26 / Num (2#1)) / (Site 0 * Site 0 * Site 0 * Site 0) + Num (1#1) / (Site 0 * Site 0 * Site 0) + Num (1#1) / (Site 0 * Site 0 * Site 0);
    Num (-6#1) * (Var 25 + Var 26 / Num (2#1)) / (Site 0 * Site 0 * Site 0 * Site 0) + Num (2#1) / (Site 0 * Site 0 * Site 0) + Num (1#1) / (Site 0 * Site 0 * Site 0) + Num (1#1) / (Site 0 * Site 0 * Site 0);
    Num (-6#1) * (Var 25 + Var 26 / Num (2#1)) / (Site 0 * Site 0 * Site 0 * Site 0) + Num (1#1) / (Site 0 * Site 0 * Site 0) + Num (1#1) / (Site 0 * Site 0 * Site 0) + Num (1#1) / (Site 0 * Site 0 * Site 0)]]];
    [[[Num (-6#1) * Var 26 / (Site 0 * Site 0 * Site 0 * Site 0);
    Num (-6#1) * Var 26 / (Site 0 * Site 0 * Site 0 * Site 0);
    Num (-6#1) * Var 26 / (Site 0 * Site 0 * Site 0 * Site 0);
    Num (-6#1) * Var 26 / (Site 0 * Site 0 * Site 0 * Site 0);
    Num (-6#1) * Var 26 / (Site 0 * Site 0 * Site 0 * Site 0);
    Num (-6#1) * Var 26 / (Site 0 * Site 0 * Site 0 * Site 0);
    Num (-6#1) * Var 26 / (Site 0 * Site 0 * Site 0 * Site 0) + Num (2#1) / (Site 0 * Site 0 * Site 0)];
    [Num (-6#1) * Var 26 / (Site 0 * Site 0 * Site 0 * Site 0);
    Num (-6#1) * Var 26 / (Site 0 * Site 0 * Site 0 * Site 0);
    Num (-6#1) * Var 26 / (Site 0 * Site 0 * Site 0 * Site 0);
    Num (-6#1) * Var 26 / (Site 0 * Site 0 * Site 0 * Site 0);
    Num (-6#1) * Var 26 / (Site 0 * Site 0 * Site 0 * Site 0);
    Num (-6#1) * Var 26 / (Site 0 * Site 0 * Site 0 * Site 0);
    Num (-6#1) * Var 26 / (Site 0 * Site 0 * Site 0 * Site 0) + Num (2#1) / (Site 0 * Site 0 * Site 0)];
    [Num (-6#1) * Var 26 / (Site 0 * Site 0 * Site 0 * Site 0);
    Num (-6#1) * Var 26 / (Site 0 * Site 0 * Site 0 * Site 0);
    Num (-6#1) * Var 26 / (Site 0 * Site 0 * Site 0 * Site 0);
    Num (-6#1) * Var 26 / (Site 0 * Site 0 * Site 0 * Site 0);
    Num (-6#1) * Var 26 / (Site 0 * Site 0 * Site 0 * Site 0);
    Num (-6#1) * Var 26 / (Site 0 * Site 0 * Site 0 * Site 0);
    Num (-6#1) * Var 26 / (Site 0 * Site 0 * Site 0 * Site 0) + Num (2#1) / (Site 0 * Site 0 * Site 0)];
    [Num (-6#1) * Var 26 / (Site 0 * Site 0 * Site 0 * Site 0);
    Num (-6#1) * Var 26 / (Site 0 * Site 0 * Site 0 * Site 0);
    Num (-6#1) * Var 26 / (Site 0 * Site 0 * Site 0 * Site 0);
    Num (-6#1) * Var 26 / (Site 0 * Site 0 * Site 0 * Site 0);
    Num (-6#1) * Var 26 / (Site 0 * Site 0 * Site 0 * Site 0);
    Num (-6#1) * Var 26 / (Site 0 * Site 0 * Site 0 * Site 0);
    Num (-6#1) * Var 26 / (Site 0 * Site 0 * Site 0 * Site 0) + Num (2#1) / (Site 0 * Site 0 * Site 0)];
    [Num (-6#1) * Var 26 / (Site 0 * Site 0 * Site 0 * Site 0);
    Num (-6#1) * Var 26 / (Site 0 * Site 0 * Site 0 * Site 0);
    Num (-6#1) * Var 26 / (Site 0 * Site 0 * Site 0 * Site 0);
    Num (-6#1) * Var 26 / (Site 0 * Site 0 * Site 0 * Site 0);
    Num (-6#1) * Var 26 / (Site 0 * Site 0 * Site 0 * Site 0);
    Num (-6#1) * Var 26 / (Site 0 * Site 0 * Site 0 * Site 0);
    Num (-6#1) * Var 26 / (Site 0 * Site 0 * Site 0 * Site 0) + Num (2#1) / (Site 0 * Site 0 * Site 0)];
    [Num (-6#1) * Var 26 / (Site 0 * Site 0 * Site 0 * Site 0);
    Num (-6#1) * Var 26 / (Site 0 * Site 0 * Site 0 * Site 0);
    Num (-6#1) * Var 26 / (Site 0 * Site 0 * Site 0 * Site 0);
    Num (-6#1) * Var 26 / (Site 0 * Site 0 * Site 0 * Site 0);
    Num (-6#1) * Var 26 / (Site 0 * Site 0 * Site 0 * Site 0);
    Num (-6#1) * Var 26 / (Site 0 * Site 0 * Site 0 * Site 0);
    Num (-6#1) * Var 26 / (Site 0 * Site 0 * Site 0 * Site 0) + Num (2#1) / (Site 0 * Site 0 * Site 0)];
    [Num (-6#1) * Var 26 / (Site 0 * Site 0 * Site 0 * Site 0) + Num (2#1) / (Site 0 * Site 0 * Site 0);
    Num (-6#1) * Var 26 / (Site 0 * Site 0 * Site 0 * Site 0) + Num (2#1) / (Site 0 * Site 0 * Site 0);
    Num (-6#1) * Var 26 / (Site 0 * Site 0 * Site 0 * Site 0) + Num (2#1) / (Site 0 * Site 0 * Site 0);
    Num (-6#1) * Var 26 / (Site 0 * Site 0 * Site 0 * Site 0) + Num (2#1) / (Site 0 * Site 0 * Site 0);
    Num (-6#1) * Var 26 / (Site 0 * Site 0 * Site 0 * Site 0) + Num (2#1) / (Site 0 * Site 0 * Site 0);
    Num (-6#1) * Var 26 / (Site 0 * Site 0 * Site 0 * Site 0) + Num (2#1) / (Site 0 * Site 0 * Site 0);
    Num (-6#1) * Var 26 / (Site 0 * Site 0 * Site 0 * Site 0) + Num (2#1) / (Site 0 * Site 0 * Site 0) + Num (2#1) / (Site 0 * Site 0 * Site 0)]];
    [[Num (-6#1) * Var 26 / (Site 0 * Site 0 * Site 0 * Site 0);
    Num (-6#1) * Var 26 / (Site 0 * Site 0 * Site 0 * Site 0);
    Num (-6#1) * Var 26 / (Site 0 * Site 0 * Site 0 * Site 0);
    Num (-6#1) * Var 26 / (Site 0 * Site 0 * Site 0 * Site 0);
    Num (-6#1) * Var 26 / (Site 0 * Site 0 * Site 0 * Site 0);
    Num (-6#1) * Var 26 / (Site 0 * Site 0 * Site 0 * Site 0);
    Num (-6#1) * Var 26 / (Site 0 * Site 0 * Site 0 * Site 0) + Num (2#1) / (Site 0 * Site 0 * Site 0)];
    [Num (-6#1) * Var 26 / (Site 0 * Site 0 * Site 0 * Site 0);
    Num (-6#1) * Var 26 / (Site 0 * Site 0 * Site 0 * Site 0);
    Num (-6#1) * Var 26 / (Site 0 * Site 0 * Site 0 * Site 0);
    Num (-6#1) * Var 26 / (Site 0 * Site 0 * Site 0 * Site 0);
    Num (-6#1) * Var 26 / (Site 0 * Site 0 * Site 0 * Site 0);
    Num (-6#1) * Var 26 / (Site 0 * Site 0 * Site 0 * Site 0);
    Num (-6#1) * Var 26 / (Site 0 * Site 0 * Site 0 * Site 0) + Num (2#1) / (Site 0 * Site 0 * Site 0)];
    [Num (-6#1) * Var 26 / (Site 0 * Site 0 * Site 0 * Site 0);
    Num (-6#1) * Var 26 / (Site 0 * Site 0 * Site 0 * Site 0);
    Num (-6#1) * Var 26 / (Site 0 * Site 0 * Site 0 * Site 0);
    Num (-6#1) * Var 26 / (Site 0 * Site 0 * Site 0 * Site 0);
    Num (-6#1) * Var 26 / (Site 0 * Site 0 * Site 0 * Site 0);
    Num (-6#1) * Var 26 / (Site 0 * Site 0 * Site 0 * Site 0);
    Num (-6#1) * Var 26 / (Site 0 * Site 0 * Site 0 * Site 0) + Num (2#1) / (Site 0 * Site 0 * Site 0)];
    [Num (-6#1) * Var 26 / (Site 0 * Site 0 * Site 0 * Site 0);
    Num (-6#1) * Var 26 / (Site 0 * Site 0 * Site 0 * Site 0);
    Num (-6#1) * Var 26 / (Site 0 * Site 0 * Site 0 * Site 0);
    Num (-6#1) * Var 26 / (Site 0 * Site 0 * Site 0 * Site 0);
    Num (-6#1) * Var 26 / (Site 0 * Site 0 * Site 0 * Site 0);
    Num (-6#1) * Var 26 / (Site 0 * Site 0 * Site 0 * Site 0);
    Num (-6#1) * Var 26 / (Site 0 * Site 0 * Site 0 * Site 0) + Num (2#1) / (Site 0 * Site 0 * Site 0)];
    [Num (-6#1) * Var 26 / (Site 0 * Site 0 * Site 0 * Site 0);
    Num (-6#1) * Var 26 / (Site 0 * Site 0 * Site 0 * Site 0);
    Num (-6#1) * Var 26 / (Site 0 * Site 0 * Site 0 * Site 0);
    Num (-6#1) * Var 26 / (Site 0 * Site 0 * Site 0 * Site 0);
    Num (-6#1) * Var 26 / (Site 0 * Site 0 * Site 0 * Site 0);
    Num (-6#1) * Var 26 / (Site 0 * Site 0 * Site 0 * Site 0);
    Num (-6#1) * Var 26 / (Site 0 * Site 0 * Site 0 * Site 0) + Num (2#1) / (Site 0 * Site 0 * Site 0)];
    [Num (-6#1) * Var 26 / (Site 0 * Site 0 * Site 0 * Site 0);
    Num (-6#1) * Var 26 / (Site 0 * Site 0 * Site 0 * Site 0);
    Num (-6#1) * Var 26 / (Site 0 * Site 0 * Site 0 * Site 0);
    Num (-6#1) * Var 26 / (Site 0 * Site 0 * Site 0 * Site 0);
    Num (-6#1) * Var 26 / (Site 0 * Site 0 * Site 0 * Site 0);
    Num (-6#1) * Var 26 / (Site 0 * Site 0 * Site 0 * Site 0);
    Num (-6#1) * Var 26 / (Site 0 * Site 0 * Site 0 * Site 0) + Num (2#1) / (Site 0 * Site 0 * Site 0)];
    [Num (-6#1) * Var 26 / (Site 0 * Site 0 * Site 0 * Site 0) + Num (2#1) / (Site 0 * Site 0 * Site 0);
    Num (-6#1) * Var 26 / (Site 0 * Site 0 * Site 0 * Site 0) + Num (2#1) / (Site 0 * Site 0 * Site 0);
    Num (-6#1) * Var 26 / (Site 0 * Site 0 * Site 0 * Site 0) + Num (2#1) / (Site 0 * Site 0 * Site 0);
    Num (-6#1) * Var 26 / (Site 0 * Site 0 * Site 0 * Site 0) + Num (2#1) / (Site 0 * Site 0 * Site 0);
    Num (-6#1) * Var 26 / (Site 0 * Site 0 * Site 0 * Site 0) + Num (2#1) / (Site 0 * Site 0 * Site 0);
    Num (-6#1) * Var 26 / (Site 0 * Site 0 * Site 0 * Site 0) + Num (2#1) / (Site 0 * Site 0 * Site 0);
    Num (-6#1) * Var 26 / (Site 0 * Site 0 * Site 0 * Site 0) + Num (2#1) / (Site 0 * Site 0 * Site 0) + Num (2#1) / (Site 0 * Site 0 * Site 0)]];
    [[Num (-6#1) * Var 26 / (Site 0 * Site 0 * Site 0 * Site 0);
    Num (-6#1) * Var 26 / (Site 0 * Site 0 * Site 0 * Site 0);
    Num (-6#1) * Var 26 / (Site 0 * Site 0 * Site 0 * Site 0);
    Num (-6#1) * Var 26 / (Site 0 * Site 0 * Site 0 * Site 0);
    Num (-6#1) * Var 26 / (Site 0 * Site 0 * Site 0 * Site 0);
    Num (-6#1) * Var 26 / (Site 0 * Site 0 * Site 0 * Site 0);
    Num (-6#1) * Var 26 / (Site 0 * Site 0 * Site 0 * Site 0) + Num (2#1) / (Site 0 * Site 0 * Site 0)];
    [Num (-6#1) * Var 26 / (Site 0 * Site 0 * Site 0 * Site 0);
    Num (-6#1) * Var 26 / (Site 0 * Site 0 * Site 0 * Site 0);
    Num (-6#1) * Var 26 / (Site 0 * Site 0 * Site 0 * Site 0);
    Num (-6#1) * Var 26 / (Site 0 * Site 0 * Site 0 * Site 0);
    Num (-6#1) * Var 26 / (Site 0 * Site 0 * Site 0 * Site 0);
    Num (-6#1) * Var 26 / (Site 0 * Site 0 * Site 0 * Site 0);
    Num (-6#1) * Var 26 / (Site 0 * Site 0 * Site 0 * Site 0) + Num (2#1) / (Site 0 * Site 0 * Site 0)];
    [Num (-6#1) * Var 26 / (Site 0 * Site 0 * Site 0 * Site 0);
    Num (-6#1) * Var 26 / (Site 0 * Site 0 * Site 0 * Site 0);
    Num (-6#1) * Var 26 / (Site 0 * Site 0 * Site 0 * Site 0);
    Num (-6#1) * Var 26 / (Site 0 * Site 0 * Site 0 * Site 0);
    Num (-6#1) * Var 26 / (Site 0 * Site 0 * Site 0 * Site 0);
    Num (-6#1) * Var 26 / (Site 0 * Site 0 * Site 0 * Site 0);
    Num (-6#1) * Var 26 / (Site 0 * Site 0 * Site 0 * Site 0) + Num (2#1) / (Site 0 * Site 0 * Site 0)];
    [Num (-6#1) * Var 26 / (Site 0 * Site 0 * Site 0 * Site 0);
    Num (-6#1) * Var 26 / (Site 0 * Site 0 * Site 0 * Site 0);
    Num (-6#1) * Var 26 / (Site 0 * Site 0 * Site 0 * Site 0);
    Num (-6#1) * Var 26 / (Site 0 * Site 0 * Site 0 * Site 0);
    Num (-6#1) * Var 26 / (Site 0 * Site 0 * Site 0 * Site 0);
    Num (-6#1) * Var 26 / (Site 0 * Site 0 * Site 0 * Site 0);
    Num (-6#1) * Var 26 / (Site 0 * Site 0 * Site 0 * Site 0) + Num (2#1) / (Site 0 * Site 0 * Site 0)];
    [Num (-6#1) * Var 26 / (Site 0 * Site 0 * Site 0 * Site 0);
    Num (-6#1) * Var 26 / (Site 0 * Site 0 * Site 0 * Site 0);
    Num (-6#1) * Var 26 / (Site 0 * Site 0 * Site 0 * Site 0);
    Num (-6#1) * Var 26 / (Site 0 * Site 0 * Site 0 * Site 0);
    Num (-6#1) * Var 26 / (Site 0 * Site 0 * Site 0 * Site 0);
    Num (-6#1) * Var 26 / (Site 0 * Site 0 * Site 0 * Site 0);
    Num (-6#1) * Var 26 / (Site 0 * Site 0 * Site 0 * Site 0) + Num (2#1) / (Site 0 * Site 0 * Site 0)];
    [Num (-6#1) * Var 26 / (Site 0 * Site 0 * Site 0 * Site 0);
    Num (-6#1) * Var 26 / (Site 0 * Site 0 * Site 0 * Site 0);
    Num (-6#1) * Var 26 / (Site 0 * Site 0 * Site 0 * Site 0);
    Num (-6#1) * Var 26 / (Site 0 * Site 0 * Site 0 * Site 0);
    Num (-6#1) * Var 26 / (Site 0 * Site 0 * Site 0 * Site 0);
    Num (-6#1) * Var 26 / (Site 0 * Site 0 * Site 0 * Site 0);
    Num (-6#1) * Var 26 / (Site 0 * Site 0 * Site 0 * Site 0) + Num (2#1) / (Site 0 * Site 0 * Site 0)];
    [Num (-6#1) * Var 26 / (Site 0 * Site 0 * Site 0 * Site 0) + Num (2#1) / (Site 0 * Site 0 * Site 0);
    Num (-6#1) * Var 26 / (Site 0 * Site 0 * Site 0 * Site 0) + Num (2#1) / (Site 0 * Site 0 * Site 0);
    Num (-6#1) * Var 26 / (Site 0 * Site 0 * Site 0 * Site 0) + Num (2#1) / (Site 0 * Site 0 * Site 0);
    Num (-6#1) * Var 26 / (Site 0 * Site 0 * Site 0 * Site 0) + Num (2#1) / (Site 0 * Site 0 * Site 0);
    Num (-6#1) * Var 26 / (Site 0 * Site 0 * Site 0 * Site 0) + Num (2#1) / (Site 0 * Site 0 * Site 0);
    Num (-6#1) * Var 26 / (Site 0 * Site 0 * Site 0 * Site 0) + Num (2#1) / (Site 0 * Site 0 * Site 0);
    Num (-6#1) * Var 26 / (Site 0 * Site 0 * Site 0 * Site 0) + Num (2#1) / (Site 0 * Site 0 * Site 0) + Num (2#1) / (Site 0 * Site 0 * Site 0)]];
    [[Num (-6#1) * Var 26 / (Site 0 * Site 0 * Site 0 * Site 0);
    Num (-6#1) * Var 26 / (Site 0 * Site 0 * Site 0 * Site 0);
    Num (-6#1) * Var 26 / (Site 0 * Site 0 * Site 0 * Site 0);
    Num (-6#1) * Var 26 / (Site 0 * Site 0 * Site 0 * Site 0);
    Num (-6#1) * Var 26 / (Site 0 * Site 0 * Site 0 * Site 0);
    Num (-6#1) * Var 26 / (Site 0 * Site 0 * Site 0 * Site 0);
    Num (-6#1) * Var 26 / (Site 0 * Site 0 * Site 0 * Site 0) + Num (2#1) / (Site 0 * Site 0 * Site 0)];
    [Num (-6#1) * Var 26 / (Site 0 * Site 0 * Site 0 * Site 0);
    Num (-6#1) * Var 26 / (Site 0 * Site 0 * Site 0 * Site 0);
    Num (-6#1) * Var 26 / (Site 0 * Site 0 * Site 0 * Site 0);
    Num (-6#1) * Var 26 / (Site 0 * Site 0 * Site 0 * Site 0);
    Num (-6#1) * Var 26 / (Site 0 * Site 0 * Site 0 * Site 0);
    Num (-6#1) * Var 26 / (Site 0 * Site 0 * Site 0 * Site 0);
    Num (-6#1) * Var 26 / (Site 0 * Site 0 * Site 0 * Site 0) + Num (2#1) / (Site 0 * Site 0 * Site 0)];
    [Num (-6#1) * Var 26 / (Site 0 * Site 0 * Site 0 * Site 0);
    Num (-6#1) * Var 26 / (Site 0 * Site 0 * Site 0 * Site 0);
    Num (-6#1) * Var 26 / (Site 0 * Site 0 * Site 0 * Site 0);
    Num (-6#1) * Var 26 / (Site 0 * Site 0 * Site 0 * Site 0);
    Num (-6#1) * Var 26 / (Site 0 * Site 0 * Site 0 * Site 0);
    Num (-6#1) * Var 26 / (Site 0 * Site 0 * Site 0 * Site 0);
    Num (-6#1) * Var 26 / (Site 0 * Site 0 * Site 0 * Site 0) + Num (2#1) / (Site 0 * Site 0 * Site 0)];
    [Num (-6#1) * Var 26 / (Site 0 * Site 0 * Site 0 * Site 0);
    Num (-6#1) * Var 26 / (Site 0 * Site 0 * Site 0 * Site 0);
    Num (-6#1) * Var 26 / (Site 0 * Site 0 * Site 0 * Site 0);
    Num (-6#1) * Var 26 / (Site 0 * Site 0 * Site 0 * Site 0);
    Num (-6#1) * Var 26 / (Site 0 * Site 0 * Site 0 * Site 0);
    Num (-6#1) * Var 26 / (Site 0 * Site 0 * Site 0 * Site 0);
    Num (-6#1) * Var 26 / (Site 0 * Site 0 * Site 0 * Site 0) + Num (2#1) / (Site 0 * Site 0 * Site 0)];
    [Num (-6#1) * Var 26 / (Site 0 * Site 0 * Site 0 * Site 0);
    Num (-6#1) * Var 26 / (Site 0 * Site 0 * Site 0 * Site 0);
    Num (-6#1) * Var 26 / (Site 0 * Site 0 * Site 0 * Site 0);
    Num (-6#1) * Var 26 / (Site 0 * Site 0 * Site 0 * Site 0);
    Num (-6#1) * Var 26 / (Site 0 * Site 0 * Site 0 * Site 0);
    Num (-6#1) * Var 26 / (Site 0 * Site 0 * Site 0 * Site 0);
    Num (-6#1) * Var 26 / (Site 0 * Site 0 * Site 0 * Site 0) + Num (2#1) / (Site 0 * Site 0 * Site 0)];
    [Num (-6#1) * Var 26 / (Site 0 * Site 0 * Site 0 * Site 0);
    Num (-6#1) * Var 26 / (Site 0 * Site 0 * Site 0 * Site 0);
    Num (-6#1) * Var 26 / (Site 0 * Site 0 * Site 0 * Site 0);
    Num (-6#1) * Var 26 / (Site 0 * Site 0 * Site 0 * Site 0);
    Num (-6#1) * Var 26 / (Site 0 * Site 0 * Site 0 * Site 0);
    Num (-6#1) * Var 26 / (Site 0 * Site 0 * Site 0 * Site 0);
    Num (-6#1) * Var 26 / (Site 0 * Site 0 * Site 0 * Site 0) + Num (2#1) / (Site 0 * Site 0 * Site 0)];
    [Num (-6#1) * Var 26 / (Site 0 * Site 0 * Site 0 * Site 0) + Num (2#1) / (Site 0 * Site 0 * Site 0);
    Num (-6#1) * Var 26 / (Site 0 * Site 0 * Site 0 * Site 0) + Num (2#1) / (Site 0 * Site 0 * Site 0);
    Num (-6#1) * Var 26 / (Site 0 * Site 0 * Site 0 * Site 0) + Num (2#1) / (Site 0 * Site 0 * Site 0);
    Num (-6#1) * Var 26 / (Site 0 * Site 0 * Site 0 * Site 0) + Num (2#1) / (Site 0 * Site 0 * Site 0);
    Num (-6#1) * Var 26 / (Site 0 * Site 0 * Site 0 * Site 0) + Num (2#1) / (Site 0 * Site 0 * Site 0);
    Num (-6#1) * Var 26 / (Site 0 * Site 0 * Site 0 * Site 0) + Num (2#1) / (Site 0 * Site 0 * Site 0);
    Num (-6#1) * Var 26 / (Site 0 * Site 0 * Site 0 * Site 0) + Num (2#1) / (Site 0 * Site 0 * Site 0) + Num (2#1) / (Site 0 * Site 0 * Site 0)]];
    [[Num (-6#1) * Var 26 / (Site 0 * Site 0 * Site 0 * Site 0);
    Num (-6#1) * Var 26 / (Site 0 * Site 0 * Site 0 * Site 0);
    Num (-6#1) * Var 26 / (Site 0 * Site 0 * Site 0 * Site 0);
    Num (-6#1) * Var 26 / (Site 0 * Site 0 * Site 0 * Site 0);
    Num (-6#1) * Var 26 / (Site 0 * Site 0 * Site 0 * Site 0);
    Num (-6#1) * Var 26 / (Site 0 * Site 0 * Site 0 * Site 0);
    Num (-6#1) * Var 26 / (Site 0 * Site 0 * Site 0 * Site 0) + Num (2#1) / (Site 0 * Site 0 * Site 0)];
    [Num (-6#1) * Var 26 / (Site 0 * Site 0 * Site 0 * Site 0);
    Num (-6#1) * Var 26 / (Site 0 * Site 0 * Site 0 * Site 0);
    Num (-6#1) * Var 26 / (Site 0 * Site 0 * Site 0 * Site 0);
    Num (-6#1) * Var 26 / (Site 0 * Site 0 * Site 0 * Site 0);
    Num (-6#1) * Var 26 / (Site 0 * Site 0 * Site 0 * Site 0);
    Num (-6#1) * Var 26 / (Site 0 * Site 0 * Site 0 * Site 0);
    Num (-6#1) * Var 26 / (Site 0 * Site 0 * Site 0 * Site 0) + Num (2#1) / (Site 0 * Site 0 * Site 0)];
    [Num (-6#1) * Var 26 / (Site 0 * Site 0 * Site 0 * Site 0);
    Num (-6#1) * Var 26 / (Site 0 * Site 0 * Site 0 * Site 0);
    Num (-6#1) * Var 26 / (Site 0 * Site 0 * Site 0 * Site 0);
    Num (-6#1) * Var 26 / (Site 0 * Site 0 * Site 0 * Site 0);
    Num (-6#1) * Var 26 / (Site 0 * Site 0 * Site 0 * Site 0);
    Num (-6#1) * Var 26 / (Site 0 * Site 0 * Site 0 * Site 0);
    Num (-6#1) * Var 26 / (Site 0 * Site 0 * Site 0 * Site 0) + Num (2#1) / (Site 0 * Site 0 * Site 0)];
    [Num (-6#1) * Var 26 / (Site 0 * Site 0 * Site 0 * Site 0);
    Num (-6#1) * Var 26 / (Site 0 * Site 0 * Site 0 * Site 0);
    Num (-6#1) * Var 26 / (Site 0 * Site 0 * Site 0 * Site 0);
    Num (-6#1) * Var 26 / (Site 0 * Site 0 * Site 0 * Site 0);
    Num (-6#1) * Var 26 / (Site 0 * Site 0 * Site 0 * Site 0);
    Num (-6#1) * Var 26 / (Site 0 * Site 0 * Site 0 * Site 0);
    Num (-6#1) * Var 26 / (Site 0 * Site 0 * Site 0 * Site 0) + Num (2#1) / (Site 0 * Site 0 * Site 0)];
    [Num (-6#1) * Var 26 / (Site 0 * Site 0 * Site 0 * Site 0);
    Num (-6#1) * Var 26 / (Site 0 * Site 0 * Site 0 * Site 0);
    Num (-6#1) * Var 26 / (Site 0 * Site 0 * Site 0 * Site 0);
    Num (-6#1) * Var 26 / (Site 0 * Site 0 * Site 0 * Site 0);
    Num (-6#1) * Var 26 / (Site 0 * Site 0 * Site 0 * Site 0);
    Num (-6#1) * Var 26 / (Site 0 * Site 0 * Site 0 * Site 0);
    Num (-6#1) * Var 26 / (Site 0 * Site 0 * Site 0 * Site 0) + Num (2#1) / (Site 0 * Site 0 * Site 0)];
    [Num (-6#1) * Var 26 / (Site 0 * Site 0 * Site 0 * Site 0);
    Num (-6#1) * Var 26 / (Site 0 * Site 0 * Site 0 * Site 0);
    Num (-6#1) * Var 26 / (Site 0 * Site 0 * Site 0 * Site 0);
    Num (-6#1) * Var 26 / (Site 0 * Site 0 * Site 0 * Site 0);
    Num (-6#1) * Var 26 / (Site 0 * Site 0 * Site 0 * Site 0);
    Num (-6#1) * Var 26 / (Site 0 * Site 0 * Site 0 * Site 0);
    Num (-6#1) * Var 26 / (Site 0 * Site 0 * Site 0 * Site 0) + Num (2#1) / (Site 0 * Site 0 * Site 0)];
    [Num (-6#1) * Var 26 / (Site 0 * Site 0 * Site 0 * Site 0) + Num (2#1) / (Site 0 * Site 0 * Site 0);
    Num (-6#1) * Var 26 / (Site 0 * Site 0 * Site 0 * Site 0) + Num (2#1) / (Site 0 * Site 0 * Site 0);
    Num (-6#1) * Var 26 / (Site 0 * Site 0 * Site 0 * Site 0) + Num (2#1) / (Site 0 * Site 0 * Site 0);
    Num (-6#1) * Var 26 / (Site 0 * Site 0 * Site 0 * Site 0) + Num (2#1) / (Site 0 * Site 0 * Site 0);
    Num (-6#1) * Var 26 / (Site 0 * Site 0 * Site 0 * Site 0) + Num (2#1) / (Site 0 * Site 0 * Site 0);
    Num (-6#1) * Var 26 / (Site 0 * Site 0 * Site 0 * Site 0) + Num (2#1) / (Site 0 * Site 0 * Site 0);
    Num (-6#1) * Var 26 / (Site 0 * Site 0 * Site 0 * Site 0) + Num (2#1) / (Site 0 * Site 0 * Site 0) + Num (2#1) / (Site 0 * Site 0 * Site 0)]];
    [[Num (-6#1) * Var 26 / (Site 0 * Site 0 * Site 0 * Site 0);
    Num (-6#1) * Var 26 / (Site 0 * Site 0 * Site 0 * Site 0);
    Num (-6#1) * Var 26 / (Site 0 * Site 0 * Site 0 * Site 0);
    Num (-6#1) * Var 26 / (Site 0 * Site 0 * Site 0 * Site 0);
    Num (-6#1) * Var 26 / (Site 0 * Site 0 * Site 0 * Site 0);
    Num (-6#1) * Var 26 / (Site 0 * Site 0 * Site 0 * Site 0);
    Num (-6#1) * Var 26 / (Site 0 * Site 0 * Site 0 * Site 0) + Num (2#1) / (Site 0 * Site 0 * Site 0)];
    [Num (-6#1) * Var 26 / (Site 0 * Site 0 * Site 0 * Site 0);
    Num (-6#1) * Var 26 / (Site 0 * Site 0 * Site 0 * Site 0);
    Num (-6#1) * Var 26 / (Site 0 * Site 0 * Site 0 * Site 0);
    Num (-6#1) * Var 26 / (Site 0 * Site 0 * Site 0 * Site 0);
    Num (-6#1) * Var 26 / (Site 0 * Site 0 * Site 0 * Site 0);
    Num (-6#1) * Var 26 / (Site 0 * Site 0 * Site 0 * Site 0);
    Num (-6#1) * Var 26 / (Site 0 * Site 0 * Site 0 * Site 0) + Num (2#1) / (Site 0 * Site 0 * Site 0)];
    [Num (-6#1) * Var 26 / (Site 0 * Site 0 * Site 0 * Site 0);
    Num (-6#1) * Var 26 / (Site 0 * Site 0 * Site 0 * Site 0);
    Num (-6#1) * Var 26 / (Site 0 * Site 0 * Site 0 * Site 0);
    Num (-6#1) * Var 26 / (Site 0 * Site 0 * Site 0 * Site 0);
    Num (-6#1) * Var 26 / (Site 0 * Site 0 * Site 0 * Site 0);
    Num (-6#1) * Var 26 / (Site 0 * Site 0 * Site 0 * Site 0);
    Num (-6#1) * Var 26 / (Site 0 * Site 0 * Site 0 * Site 0) + Num (2#1) / (Site 0 * Site 0 * Site 0)];
    [Num (-6#1) * Var 26 / (Site 0 * Site 0 * Site 0 * Site 0);
    Num (-6#1) * Var 26 / (Site 0 * Site 0 * Site 0 * Site 0);
    Num (-6#1) * Var 26 / (Site 0 * Site 0 * Site 0 * Site 0);
    Num (-6#1) * Var 26 / (Site 0 * Site 0 * Site 0 * Site 0);
    Num (-6#1) * Var 26 / (Site 0 * Site 0 * Site 0 * Site 0);
    Num (-6#1) * Var 26 / (Site 0 * Site 0 * Site 0 * Site 0);
    Num (-6#1) * Var 26 / (Site 0 * Site 0 * Site 0 * Site 0) + Num (2#1) / (Site 0 * Site 0 * Site 0)];
    [Num (-6#1) * Var 26 / (Site 0 * Site 0 * Site 0 * Site 0);
    Num (-6#1) * Var 26 / (Site 0 * Site 0 * Site 0 * Site 0);
    Num (-6#1) * Var 26 / (Site 0 * Site 0 * Site 0 * Site 0);
    Num (-6#1) * Var 26 / (Site 0 * Site 0 * Site 0 * Site 0);
    Num (-6#1) * Var 26 / (Site 0 * Site 0 * Site 0 * Site 0);
    Num (-6#1) * Var 26 / (Site 0 * Site 0 * Site 0 * Site 0);
    Num (-6#1) * Var 26 / (Site 0 * Site 0 * Site 0 * Site 0) + Num (2#1) / (Site 0 * Site 0 * Site 0)];
    [Num (-6#1) * Var 26 / (Site 0 * Site 0 * Site 0 * Site 0);
    Num (-6#1) * Var 26 / (Site 0 * Site 0 * Site 0 * Site 0);
    Num (-6#1) * Var 26 / (Site 0 * Site 0 * Site 0 * Site 0);
    Num (-6#1) * Var 26 / (Site 0 * Site 0 * Site 0 * Site 0);
    Num (-6#1) * Var 26 / (Site 0 * Site 0 * Site 0 * Site 0);
    Num (-6#1) * Var 26 / (Site 0 * Site 0 * Site 0 * Site 0);
    Num (-6#1) * Var 26 / (Site 0 * Site 0 * Site 0 * Site 0) + Num (2#1) / (Site 0 * Site 0 * Site 0)];
    [Num (-6#1) * Var 26 / (Site 0 * Site 0 * Site 0 * Site 0) + Num (2#1) / (Site 0 * Site 0 * Site 0);
    Num (-6#1) * Var 26 / (Site 0 * Site 0 * Site 0 * Site 0) + Num (2#1) / (Site 0 * Site 0 * Site 0);
    Num (-6#1) * Var 26 / (Site 0 * Site 0 * Site 0 * Site 0) + Num (2#1) / (Site 0 * Site 0 * Site 0);
    Num (-6#1) * Var 26 / (Site 0 * Site 0 * Site 0 * Site 0) + Num (2#1) / (Site 0 * Site 0 * Site 0);
    Num (-6#1) * Var 26 / (Site 0 * Site 0 * Site 0 * Site 0) + Num (2#1) / (Site 0 * Site 0 * Site 0);
    Num (-6#1) * Var 26 / (Site 0 * Site 0 * Site 0 * Site 0) + Num (2#1) / (Site 0 * Site 0 * Site 0);
    Num (-6#1) * Var 26 / (Site 0 * Site 0 * Site 0 * Site 0) + Num (2#1) / (Site 0 * Site 0 * Site 0) + Num (2#1) / (Site 0 * Site 0 * Site 0)]];
    [[Num (-6#1) * Var 26 / (Site 0 * Site 0 * Site 0 * Site 0) + Num (2#1) / (Site 0 * Site 0 * Site 0);
    Num (-6#1) * Var 26 / (Site 0 * Site 0 * Site 0 * Site 0) + Num (2#1) / (Site 0 * Site 0 * Site 0);
    Num (-6#1) * Var 26 / (Site 0 * Site 0 * Site 0 * Site 0) + Num (2#1) / (Site 0 * Site 0 * Site 0);
    Num (-6#1) * Var 26 / (Site 0 * Site 0 * Site 0 * Site 0) + Num (2#1) / (Site 0 * Site 0 * Site 0);
    Num (-6#1) * Var 26 / (Site 0 * Site 0 * Site 0 * Site 0) + Num (2#1) / (Site 0 * Site 0 * Site 0);
    Num (-6#1) * Var 26 / (Site 0 * Site 0 * Site 0 * Site 0) + Num (2#1) / (Site 0 * Site 0 * Site 0);
    Num (-6#1) * Var 26 / (Site 0 * Site 0 * Site 0 * Site 0) + Num (2#1) / (Site 0 * Site 0 * Site 0) + Num (2#1) / (Site 0 * Site 0 * Site 0)];
    [Num (-6#1) * Var 26 / (Site 0 * Site 0 * Site 0 * Site 0) + Num (2#1) / (Site 0 * Site 0 * Site 0);
    Num (-6#1) * Var 26 / (Site 0 * Site 0 * Site 0 * Site 0) + Num (2#1) / (Site 0 * Site 0 * Site 0);
    Num (-6#1) * Var 26 / (Site 0 * Site 0 * Site 0 * Site 0) + Num (2#1) / (Site 0 * Site 0 * Site 0);
    Num (-6#1) * Var 26 / (Site 0 * Site 0 * Site 0 * Site 0) + Num (2#1) / (Site 0 * Site 0 * Site 0);
    Num (-6#1) * Var 26 / (Site 0 * Site 0 * Site 0 * Site 0) + Num (2#1) / (Site 0 * Site 0 * Site 0);
    Num (-6#1) * Var 26 / (Site 0 * Site 0 * Site 0 * Site 0) + Num (2#1) / (Site 0 * Site 0 * Site 0);
    Num (-6#1) * Var 26 / (Site 0 * Site 0 * Site 0 * Site 0) + Num (2#1) / (Site 0 * Site 0 * Site 0) + Num (2#1) / (Site 0 * Site 0 * Site 0)];
    [Num (-6#1) * Var 26 / (Site 0 * Site 0 * Site 0 * Site 0) + Num (2#1) / (Site 0 * Site 0 * Site 0);
    Num (-6#1) * Var 26 / (Site 0 * Site 0 * Site 0 * Site 0) + Num (2#1) / (Site 0 * Site 0 * Site 0);
    Num (-6#1) * Var 26 / (Site 0 * Site 0 * Site 0 * Site 0) + Num (2#1) / (Site 0 * Site 0 * Site 0);
    Num (-6#1) * Var 26 / (Site 0 * Site 0 * Site 0 * Site 0) + Num (2#1) / (Site 0 * Site 0 * Site 0);
    Num (-6#1) * Var 26 / (Site 0 * Site 0 * Site 0 * Site 0) + Num (2#1) / (Site 0 * Site 0 * Site 0);
    Num (-6#1) * Var 26 / (Site 0 * Site 0 * Site 0 * Site 0) + Num (2#1) / (Site 0 * Site 0 * Site 0);
    Num (-6#1) * Var 26 / (Site 0 * Site 0 * Site 0 * Site 0) + Num (2#1) / (Site 0 * Site 0 * Site 0) + Num (2#1) / (Site 0 * Site 0 * Site 0)];
    [Num (-6#1) * Var 26 / (Site 0 * Site 0 * Site 0 * Site 0) + Num (2#1) / (Site 0 * Site 0 * Site 0);
    Num (-6#1) * Var 26 / (Site 0 * Site 0 * Site 0 * Site 0) + Num (2#1) / (Site 0 * Site 0 * Site 0);
    Num (-6#1) * Var 26 / (Site 0 * Site 0 * Site 0 * Site 0) + Num (2#1) / (Site 0 * Site 0 * Site 0);
    Num (-6#1) * Var 26 / (Site 0 * Site 0 * Site 0 * Site 0) + Num (2#1) / (Site 0 * Site 0 * Site 0);
    Num (-6#1) * Var 26 / (Site 0 * Site 0 * Site 0 * Site 0) + Num (2#1) / (Site 0 * Site 0 * Site 0);
    Num (-6#1) * Var 26 / (Site 0 * Site 0 * Site 0 * Site 0) + Num (2#1) / (Site 0 * Site 0 * Site 0);
    Num (-6#1) * Var 26 / (Site 0 * Site 0 * Site 0 * Site 0) + Num (2#1) / (Site 0 * Site 0 * Site 0) + Num (2#1) / (Site 0 * Site 0 * Site 0)];
    [Num (-6#1) * Var 26 / (Site 0 * Site 0 * Site 0 * Site 0) + Num (2#1) / (Site 0 * Site 0 * Site 0);
    Num (-6#1) * Var 26 / (Site 0 * Site 0 * Site 0 * Site 0) + Num (2#1) / (Site 0 * Site 0 * Site 0);
    Num (-6#1) * Var 26 / (Site 0 * Site 0 * Site 0 * Site 0) + Num (2#1) / (Site 0 * Site 0 * Site 0);
    Num (-6#1) * Var 26 / (Site 0 * Site 0 * Site 0 * Site 0) + Num (2#1) / (Site 0 * Site 0 * Site 0);
    Num (-6#1) * Var 26 / (Site 0 * Site 0 * Site 0 * Site 0) + Num (2#1) / (Site 0 * Site 0 * Site 0);
    Num (-6#1) * Var 26 / (Site 0 * Site 0 * Site 0 * Site 0) + Num (2#1) / (Site 0 * Site 0 * Site 0);
    Num (-6#1) * Var 26 / (Site 0 * Site 0 * Site 0 * Site 0) + Num (2#1) / (Site 0 * Site 0 * Site 0) + Num (2#1) / (Site 0 * Site 0 * Site 0)];
    [Num (-6#1) * Var 26 / (Site 0 * Site 0 * Site 0 * Site 0) + Num (2#1) / (Site 0 * Site 0 * Site 0);
    Num (-6#1) * Var 26 / (Site 0 * Site 0 * Site 0 * Site 0) + Num (2#1) / (Site 0 * Site 0 * Site 0);
    Num (-6#1) * Var 26 / (Site 0 * Site 0 * Site 0 * Site 0) + Num (2#1) / (Site 0 * Site 0 * Site 0);
    Num (-6#1) * Var 26 / (Site 0 * Site 0 * Site 0 * Site 0) + Num (2#1) / (Site 0 * Site 0 * Site 0);
    Num (-6#1) * Var 26 / (Site 0 * Site 0 * Site 0 * Site 0) + Num (2#1) / (Site 0 * Site 0 * Site 0);
    Num (-6#1) * Var 26 / (Site 0 * Site 0 * Site 0 * Site 0) + Num (2#1) / (Site 0 * Site 0 * Site 0);
    Num (-6#1) * Var 26 / (Site 0 * Site 0 * Site 0 * Site 0) + Num (2#1) / (Site 0 * Site 0 * Site 0) + Num (2#1) / (Site 0 * Site 0 * Site 0)];
    [Num (-6#1) * Var 26 / (Site 0 * Site 0 * Site 0 * Site 0) + Num (2#1) / (Site 0 * Site 0 * Site 0) + Num (2#1) / (Site 0 * Site 0 * Site 0);
    Num (-6#1) * Var 26 / (Site 0 * Site 0 * Site 0 * Site 0) + Num (2#1) / (Site 0 * Site 0 * Site 0) + Num (2#1) / (Site 0 * Site 0 * Site 0);
    Num (-6#1) * Var 26 / (Site 0 * Site 0 * Site 0 * Site 0) + Num (2#1) / (Site 0 * Site 0 * Site 0) + Num (2#1) / (Site 0 * Site 0 * Site 0);
    Num (-6#1) * Var 26 / (Site 0 * Site 0 * Site 0 * Site 0) + Num (2#1) / (Site 0 * Site 0 * Site 0) + Num (2#1) / (Site 0 * Site 0 * Site 0);
    Num (-6#1) * Var 26 / (Site 0 * Site 0 * Site 0 * Site 0) + Num (2#1) / (Site 0 * Site 0 * Site 0) + Num (2#1) / (Site 0 * Site 0 * Site 0);
    Num (-6#1) * Var 26 / (Site 0 * Site 0 * Site 0 * Site 0) + Num (2#1) / (Site 0 * Site 0 * Site 0) + Num (2#1) / (Site 0 * Site 0 * Site 0);
    Num (-6#1) * Var 26 / (Site 0 * Site 0 * Site 0 * Site 0) + Num (2#1) / (Site 0 * Site 0 * Site 0) + Num (2#1) / (Site 0 * Site 0 * Site 0) + Num (2#1) / (Site 0 * Site 0 * Site 0)]]];
    [[[Num (-6#1) * Var 21 / (Site 0 * Site 0 * Site 0 * Site 0);
    Num (-6#1) * Var 21 / (Site 0 * Site 0 * Site 0 * Site 0) + Num (2#1) / (Site 0 * Site 0 * Site 0);
    Num (-6#1) * Var 21 / (Site 0 * Site 0 * Site 0 * Site 0);
    Num (-6#1) * Var 21 / (Site 0 * Site 0 * Site 0 * Site 0);
    Num (-6#1) * Var 21 / (Site 0 * Site 0 * Site 0 * Site 0);
    Num (-6#1) * Var 21 / (Site 0 * Site 0 * Site 0 * Site 0);
    Num (-6#1) * Var 21 / (Site 0 * Site 0 * Site 0 * Site 0)];
    [Num (-6#1) * Var 21 / (Site 0 * Site 0 * Site 0 * Site 0) + Num (2#1) / (Site 0 * Site 0 * Site 0);
    Num (-6#1) * Var 21 / (Site 0 * Site 0 * Site 0 * Site 0) + Num (2#1) / (Site 0 * Site 0 * Site 0) + Num (2#1) / (Site 0 * Site 0 * Site 0);
    Num (-6#1) * Var 21 / (Site 0 * Site 0 * Site 0 * Site 0) + Num (2#1) / (Site 0 * Site 0 * Site 0);
    Num (-6#1) * Var 21 / (Site 0 * Site 0 * Site 0 * Site 0) + Num (2#1) / (Site 0 * Site 0 * Site 0);
    Num (-6#1) * Var 21 / (Site 0 * Site 0 * Site 0 * Site 0) + Num (2#1) / (Site 0 * Site 0 * Site 0);
    Num (-6#1) * Var 21 / (Site 0 * Site 0 * Site 0 * Site 0) + Num (2#1) / (Site 0 * Site 0 * Site 0);
    Num (-6#1) * Var 21 / (Site 0 * Site 0 * Site 0 * Site 0) + Num (2#1) / (Site 0 * Site 0 * Site 0)];
    [Num (-6#1) * Var 21 / (Site 0 * Site 0 * Site 0 * Site 0);
    Num (-6#1) * Var 21 / (Site 0 * Site 0 * Site 0 * Site 0) + Num (2#1) / (Site 0 * Site 0 * Site 0);
    Num (-6#1) * Var 21 / (Site 0 * Site 0 * Site 0 * Site 0);
    Num (-6#1) * Var 21 / (Site 0 * Site 0 * Site 0 * Site 0);
    Num (-6#1) * Var 21 / (Site 0 * Site 0 * Site 0 * Site 0);
    Num (-6#1) * Var 21 / (Site 0 * Site 0 * Site 0 * Site 0);
    Num (-6#1) * Var 21 / (Site 0 * Site 0 * Site 0 * Site 0)];
    [Num (-6#1) * Var 21 / (Site 0 * Site 0 * Site 0 * Site 0);
    Num (-6#1) * Var 21 / (Site 0 * Site 0 * Site 0 * Site 0) + Num (2#1) / (Site 0 * Site 0 * Site 0);
    Num (-6#1) * Var 21 / (Site 0 * Site 0 * Site 0 * Site 0);
    Num (-6#1) * Var 21 / (Site 0 * Site 0 * Site 0 * Site 0);
    Num (-6#1) * Var 21 / (Site 0 * Site 0 * Site 0 * Site 0);
    Num (-6#1) * Var 21 / (Site 0 * Site 0 * Site 0 * Site 0);
    Num (-6#1) * Var 21 / (Site 0 * Site 0 * Site 0 * Site 0)];
    [Num (-6#1) * Var 21 / (Site 0 * Site 0 * Site 0 * Site 0);
    Num (-6#1) * Var 21 / (Site 0 * Site 0 * Site 0 * Site 0) + Num (2#1) / (Site 0 * Site 0 * Site 0);
    Num (-6#1) * Var 21 / (Site 0 * Site 0 * Site 0 * Site 0);
    Num (-6#1) * Var 21 / (Site 0 * Site 0 * Site 0 * Site 0);
    Num (-6#1) * Var 21 / (Site 0 * Site 0 * Site 0 * Site 0);
    Num (-6#1) * Var 21 / (Site 0 * Site 0 * Site 0 * Site 0);
    Num (-6#1) * Var 21 / (Site 0 * Site 0 * Site 0 * Site 0)];
    [Num (-6#1) * Var 21 / (Site 0 * Site 0 * Site 0 * Site 0);
    Num (-6#1) * Var 21 / (Site 0 * Site 0 * Site 0 * Site 0) + Num (2#1) / (Site 0 * Site 0 * Site 0);
    Num (-6#1) * Var 21 / (Site 0 * Site 0 * Site 0 * Site 0);
    Num (-6#1) * Var 21 / (Site 0 * Site 0 * Site 0 * Site 0);
    Num (-6#1) * Var 21 / (Site 0 * Site 0 * Site 0 * Site 0);
    Num (-6#1) * Var 21 / (Site 0 * Site 0 * Site 0 * Site 0);
    Num (-6#1) * Var 21 / (Site 0 * Site 0 * Site 0 * Site 0)];
    [Num (-6#1) * Var 21 / (Site 0 * Site 0 * Site 0 * Site 0);
    Num (-6#1) * Var 21 / (Site 0 * Site 0 * Site 0 * Site 0) + Num (2#1) / (Site 0 * Site 0 * Site 0);
    Num (-6#1) * Var 21 / (Site 0 * Site 0 * Site 0 * Site 0);
    Num (-6#1) * Var 21 / (Site 0 * Site 0 * Site 0 * Site 0);
    Num (-6#1) * Var 21 / (Site 0 * Site 0 * Site 0 * Site 0);
    Num (-6#1) * Var 21 / (Site 0 * Site 0 * Site 0 * Site 0);
    Num (-6#1) * Var 21 / (Site 0 * Site 0 * Site 0 * Site 0)]];
    [[Num (-6#1) * Var 21 / (Site 0 * Site 0 * Site 0 * Site 0) + Num (2#1) / (Site 0 * Site 0 * Site 0);
    Num (-6#1) * Var 21 / (Site 0 * Site 0 * Site 0 * Site 0) + Num (2#1) / (Site 0 * Site 0 * Site 0) + Num (2#1) / (Site 0 * Site 0 * Site 0);
    Num (-6#1) * Var 21 / (Site 0 * Site 0 * Site 0 * Site 0) + Num (2#1) / (Site 0 * Site 0 * Site 0);
    Num (-6#1) * Var 21 / (Site 0 * Site 0 * Site 0 * Site 0) + Num (2#1) / (Site 0 * Site 0 * Site 0);
    Num (-6#1) * Var 21 / (Site 0 * Site 0 * Site 0 * Site 0) + Num (2#1) / (Site 0 * Site 0 * Site 0);
    Num (-6#1) * Var 21 / (Site 0 * Site 0 * Site 0 * Site 0) + Num (2#1) / (Site 0 * Site 0 * Site 0);
    Num (-6#1) * Var 21 / (Site 0 * Site 0 * Site 0 * Site 0) + Num (2#1) / (Site 0 * Site 0 * Site 0)];
    [Num (-6#1) * Var 21 / (Site 0 * Site 0 * Site 0 * Site 0) + Num (2#1) / (Site 0 * Site 0 * Site 0) + Num (2#1) / (Site 0 * Site 0 * Site 0);
    Num (-6#1) * Var 21 / (Site 0 * Site 0 * Site 0 * Site 0) + Num (2#1) / (Site 0 * Site 0 * Site 0) + Num (2#1) / (Site 0 * Site 0 * Site 0) + Num (2#1) / (Site 0 * Site 0 * Site 0);
    Num (-6#1) * Var 21 / (Site 0 * Site 0 * Site 0 * Site 0) + Num (2#1) / (Site 0 * Site 0 * Site 0) + Num (2#1) / (Site 0 * Site 0 * Site 0);
    Num (-6#1) * Var 21 / (Site 0 * Site 0 * Site 0 * Site 0) + Num (2#1) / (Site 0 * Site 0 * Site 0) + Num (2#1) / (Site 0 * Site 0 * Site 0);
    Num (-6#1) * Var 21 / (Site 0 * Site 0 * Site 0 * Site 0) + Num (2#1) / (Site 0 * Site 0 * Site 0) + Num (2#1) / (Site 0 * Site 0 * Site 0);
    Num (-6#1) * Var 21 / (Site 0 * Site 0 * Site 0 * Site 0) + Num (2#1) / (Site 0 * Site 0 * Site 0) + Num (2#1) / (Site 0 * Site 0 * Site 0);
    Num (-6#1) * Var 21 / (Site 0 * Site 0 * Site 0 * Site 0) + Num (2#1) / (Site 0 * Site 0 * Site 0) + Num (2#1) / (Site 0 * Site 0 * Site 0)];
    [Num (-6#1) * Var 21 / (Site 0 * Site 0 * Site 0 * Site 0) + Num (2#1) / (Site 0 * Site 0 * Site 0);
    Num (-6#1) * Var 21 / (Site 0 * Site 0 * Site 0 * Site 0) + Num (2#1) / (Site 0 * Site 0 * Site 0) + Num (2#1) / (Site 0 * Site 0 * Site 0);
    Num (-6#1) * Var 21 / (Site 0 * Site 0 * Site 0 * Site 0) + Num (2#1) / (Site 0 * Site 0 * Site 0);
    Num (-6#1) * Var 21 / (Site 0 * Site 0 * Site 0 * Site 0) + Num (2#1) / (Site 0 * Site 0 * Site 0);
    Num (-6#1) * Var 21 / (Site 0 * Site 0 * Site 0 * Site 0) + Num (2#1) / (Site 0 * Site 0 * Site 0);
    Num (-6#1) * Var 21 / (Site 0 * Site 0 * Site 0 * Site 0) + Num (2#1) / (Site 0 * Site 0 * Site 0);
    Num (-6#1) * Var 21 / (Site 0 * Site 0 * Site 0 * Site 0) + Num (2#1) / (Site 0 * Site 0 * Site 0)];
    [Num (-6#1) * Var 21 / (Site 0 * Site 0 * Site 0 * Site 0) + Num (2#1) / (Site 0 * Site 0 * Site 0);
    Num (-6#1) * Var 21 / (Site 0 * Site 0 * Site 0 * Site 0) + Num (2#1) / (Site 0 * Site 0 * Site 0) + Num (2#1) / (Site 0 * Site 0 * Site 0);
    Num (-6#1) * Var 21 / (Site 0 * Site 0 * Site 0 * Site 0) + Num (2#1) / (Site 0 * Site 0 * Site 0);
    Num (-6#1) * Var 21 / (Site 0 * Site 0 * Site 0 * Site 0) + Num (2#1) / (Site 0 * Site 0 * Site 0);
    Num (-6#1) * Var 21 / (Site 0 * Site 0 * Site 0 * Site 0) + Num (2#1) / (Site 0 * Site 0 * Site 0);
    Num (-6#1) * Var 21 / (Site 0 * Site 0 * Site 0 * Site 0) + Num (2#1) / (Site 0 * Site 0 * Site 0);
    Num (-6#1) * Var 21 / (Site 0 * Site 0 * Site 0 * Site 0) + Num (2#1) / (Site 0 * Site 0 * Site 0)];
    [Num (-6#1) * Var 21 / (Site 0 * Site 0 * Site 0 * Site 0) + Num (2#1) / (Site 0 * Site 0 * Site 0);
    Num (-6#1) * Var 21 / (Site 0 * Site 0 * Site 0 * Site 0) + Num (2#1) / (Site 0 * Site 0 * Site 0) + Num (2#1) / (Site 0 * Site 0 * Site 0);
    Num (-6#1) * Var 21 / (Site 0 * Site 0 * Site 0 * Site 0) + Num (2#1) / (Site 0 * Site 0 * Site 0);
    Num (-6#1) * Var 21 / (Site 0 * Site 0 * Site 0 * Site 0) + Num (2#1) / (Site 0 * Site 0 * Site 0);
    Num (-6#1) * Var 21 / (Site 0 * Site 0 * Site 0 * Site 0) + Num (2#1) / (Site 0 * Site 0 * Site 0);
    Num (-6#1) * Var 21 / (Site 0 * Site 0 * Site 0 * Site 0) + Num (2#1) / (Site 0 * Site 0 * Site 0);
    Num (-6#1) * Var 21 / (Site 0 * Site 0 * Site 0 * Site 0) + Num (2#1) / (Site 0 * Site 0 * Site 0)];
    [Num (-6#1) * Var 21 / (Site 0 * Site 0 * Site 0 * Site 0) + Num (2#1) / (Site 0 * Site 0 * Site 0);
    Num (-6#1) * Var 21 / (Site 0 * Site 0 * Site 0 * Site 0) + Num (2#1) / (Site 0 * Site 0 * Site 0) + Num (2#1) / (Site 0 * Site 0 * Site 0);
    Num (-6#1) * Var 21 / (Site 0 * Site 0 * Site 0 * Site 0) + Num (2#1) / (Site 0 * Site 0 * Site 0);
    Num (-6#1) * Var 21 / (Site 0 * Site 0 * Site 0 * Site 0) + Num (2#1) / (Site 0 * Site 0 * Site 0);
    Num (-6#1) * Var 21 / (Site 0 * Site 0 * Site 0 * Site 0) + Num (2#1) / (Site 0 * Site 0 * Site 0);
    Num (-6#1) * Var 21 / (Site 0 * Site 0 * Site 0 * Site 0) + Num (2#1) / (Site 0 * Site 0 * Site 0);
    Num (-6#1) * Var 21 / (Site 0 * Site 0 * Site 0 * Site 0) + Num (2#1) / (Site 0 * Site 0 * Site 0)];
    [Num (-6#1) * Var 21 / (Site 0 * Site 0 * Site 0 * Site 0) + Num (2#1) / (Site 0 * Site 0 * Site 0);
    Num (-6#1) * Var 21 / (Site 0 * Site 0 * Site 0 * Site 0) + Num (2#1) / (Site 0 * Site 0 * Site 0) + Num (2#1) / (Site 0 * Site 0 * Site 0);
    Num (-6#1) * Var 21 / (Site 0 * Site 0 * Site 0 * Site 0) + Num (2#1) / (Site 0 * Site 0 * Site 0);
    Num (-6#1) * Var 21 / (Site 0 * Site 0 * Site 0 * Site 0) + Num (2#1) / (Site 0 * Site 0 * Site 0);
    Num (-6#1) * Var 21 / (Site 0 * Site 0 * Site 0 * Site 0) + Num (2#1) / (Site 0 * Site 0 * Site 0);
    Num (-6#1) * Var 21 / (Site 0 * Site 0 * Site 0 * Site 0) + Num (2#1) / (Site 0 * Site 0 * Site 0);
    Num (-6#1) * Var 21 / (Site 0 * Site 0 * Site 0 * Site 0) + Num (2#1) / (Site 0 * Site 0 * Site 0)]];
    [[Num (-6#1) * Var 21 / (Site 0 * Site 0 * Site 0 * Site 0);
    Num (-6#1) * Var 21 / (Site 0 * Site 0 * Site 0 * Site 0) + Num (2#1) / (Site 0 * Site 0 * Site 0);
    Num (-6#1) * Var 21 / (Site 0 * Site 0 * Site 0 * Site 0);
    Num (-6#1) * Var 21 / (Site 0 * Site 0 * Site 0 * Site 0);
    Num (-6#1) * Var 21 / (Site 0 * Site 0 * Site 0 * Site 0);
    Num (-6#1) * Var 21 / (Site 0 * Site 0 * Site 0 * Site 0);
    Num (-6#1) * Var 21 / (Site 0 * Site 0 * Site 0 * Site 0)];
    [Num (-6#1) * Var 21 / (Site 0 * Site 0 * Site 0 * Site 0) + Num (2#1) / (Site 0 * Site 0 * Site 0);
    Num (-6#1) * Var 21 / (Site 0 * Site 0 * Site 0 * Site 0) + Num (2#1) / (Site 0 * Site 0 * Site 0) + Num (2#1) / (Site 0 * Site 0 * Site 0);
    Num (-6#1) * Var 21 / (Site 0 * Site 0 * Site 0 * Site 0) + Num (2#1) / (Site 0 * Site 0 * Site 0);
    Num (-6#1) * Var 21 / (Site 0 * Site 0 * Site 0 * Site 0) + Num (2#1) / (Site 0 * Site 0 * Site 0);
    Num (-6#1) * Var 21 / (Site 0 * Site 0 * Site 0 * Site 0) + Num (2#1) / (Site 0 * Site 0 * Site 0);
    Num (-6#1) * Var 21 / (Site 0 * Site 0 * Site 0 * Site 0) + Num (2#1) / (Site 0 * Site 0 * Site 0);
    Num (-6#1) * Var 21 / (Site 0 * Site 0 * Site 0 * Site 0) + Num (2#1) / (Site 0 * Site 0 * Site 0)];
    [Num (-6#1) * Var 21 / (Site 0 * Site 0 * Site 0 * Site 0);
    Num (-6#1) * Var 21 / (Site 0 * Site 0 * Site 0 * Site 0) + Num (2#1) / (Site 0 * Site 0 * Site 0);
    Num (-6#1) * Var 21 / (Site 0 * Site 0 * Site 0 * Site 0);
    Num (-6#1) * Var 21 / (Site 0 * Site 0 * Site 0 * Site 0);
    Num (-6#1) * Var 21 / (Site 0 * Site 0 * Site 0 * Site 0);
    Num (-6#1) * Var 21 / (Site 0 * Site 0 * Site 0 * Site 0);
    Num (-6#1) * Var 21 / (Site 0 * Site 0 * Site 0 * Site 0)];
    [Num (-6#1) * Var 21 / (Site 0 * Site 0 * Site 0 * Site 0);
    Num (-6#1) * Var 21 / (Site 0 * Site 0 * Site 0 * Site 0) + Num (2#1) / (Site 0 * Site 0 * Site 0);
    Num (-6#1) * Var 21 / (Site 0 * Site 0 * Site 0 * Site 0);
    Num (-6#1) * Var 21 / (Site 0 * Site 0 * Site 0 * Site 0);
    Num (-6#1) * Var 21 / (Site 0 * Site 0 * Site 0 * Site 0);
    Num (-6#1) * Var 21 / (Site 0 * Site 0 * Site 0 * Site 0);
    Num (-6#1) * Var 21 / (Site 0 * Site 0 * Site 0 * Site 0)];
    [Num (-6#1) * Var 21 / (Site 0 * Site 0 * Site 0 * Site 0);
    Num (-6#1) * Var 21 / (Site 0 * Site 0 * Site 0 * Site 0) + Num (2#1) / (Site 0 * Site 0 * Site 0);
    Num (-6#1) * Var 21 / (Site 0 * Site 0 * Site 0 * Site 0);
    Num (-6#1) * Var 21 / (Site 0 * Site 0 * Site 0 * Site 0);
    Num (-6#1) * Var 21 / (Site 0 * Site 0 * Site 0 * Site 0);
    Num (-6#1) * Var 21 / (Site 0 * Site 0 * Site 0 * Site 0);
    Num (-6#1) * Var 21 / (Site 0 * Site 0 * Site 0 * Site 0)];
    [Num (-6#1) * Var 21 / (Site 0 * Site 0 * Site 0 * Site 0);
    Num (-6#1) * Var 21 / (Site 0 * Site 0 * Site 0 * Site 0) + Num (2#1) / (Site 0 * Site 0 * Site 0);
    Num (-6#1) * Var 21 / (Site 0 * Site 0 * Site 0 * Site 0);
    Num (-6#1) * Var 21 / (Site 0 * Site 0 * Site 0 * Site 0);
    Num (-6#1) * Var 21 / (Site 0 * Site 0 * Site 0 * Site 0);
    Num (-6#1) * Var 21 / (Site 0 * Site 0 * Site 0 * Site 0);
    Num (-6#1) * Var 21 / (Site 0 * Site 0 * Site 0 * Site 0)];
    [Num (-6#1) * Var 21 / (Site 0 * Site 0 * Site 0 * Site 0);
    Num (-6#1) * Var 21 / (Site 0 * Site 0 * Site 0 * Site 0) + Num (2#1) / (Site 0 * Site 0 * Site 0);
    Num (-6#1) * Var 21 / (Site 0 * Site 0 * Site 0 * Site 0);
    Num (-6#1) * Var 21 / (Site 0 * Site 0 * Site 0 * Site 0);
    Num (-6#1) * Var 21 / (Site 0 * Site 0 * Site 0 * Site 0);
    Num (-6#1) * Var 21 / (Site 0 * Site 0 * Site 0 * Site 0);
    Num (-6#1) * Var 21 / (Site 0 * Site 0 * Site 0 * Site 0)]];
    [[Num (-6#1) * Var 21 / (Site 0 * Site 0 * Site 0 * Site 0);
    Num (-6#1) * Var 21 / (Site 0 * Site 0 * Site 0 * Site 0) + Num (2#1) / (Site 0 * Site 0 * Site 0);
    Num (-6#1) * Var 21 / (Site 0 * Site 0 * Site 0 * Site 0);
    Num (-6#1) * Var 21 / (Site 0 * Site 0 * Site 0 * Site 0);
    Num (-6#1) * Var 21 / (Site 0 * Site 0 * Site 0 * Site 0);
    Num (-6#1) * Var 21 / (Site 0 * Site 0 * Site 0 * Site 0);
    Num (-6#1) * Var 21 / (Site 0 * Site 0 * Site 0 * Site 0)];
    [Num (-6#1) * Var 21 / (Site 0 * Site 0 * Site 0 * Site 0) + Num (2#1) / (Site 0 * Site 0 * Site 0);
    Num (-6#1) * Var 21 / (Site 0 * Site 0 * Site 0 * Site 0) + Num (2#1) / (Site 0 * Site 0 * Site 0) + Num (2#1) / (Site 0 * Site 0 * Site 0);
    Num (-6#1) * Var 21 / (Site 0 * Site 0 * Site 0 * Site 0) + Num (2#1) / (Site 0 * Site 0 * Site 0);
    Num (-6#1) * Var 21 / (Site 0 * Site 0 * Site 0 * Site 0) + Num (2#1) / (Site 0 * Site 0 * Site 0);
    Num (-6#1) * Var 21 / (Site 0 * Site 0 * Site 0 * Site 0) + Num (2#1) / (Site 0 * Site 0 * Site 0);
    Num (-6#1) * Var 21 / (Site 0 * Site 0 * Site 0 * Site 0) + Num (2#1) / (Site 0 * Site 0 * Site 0);
    Num (-6#1) * Var 21 / (Site 0 * Site 0 * Site 0 * Site 0) + Num (2#1) / (Site 0 * Site 0 * Site 0)];
    [Num (-6#1) * Var 21 / (Site 0 * Site 0 * Site 0 * Site 0);
    Num (-6#1) * Var 21 / (Site 0 * Site 0 * Site 0 * Site 0) + Num (2#1) / (Site 0 * Site 0 * Site 0);
    Num (-6#1) * Var 21 / (Site 0 * Site 0 * Site 0 * Site 0);
    Num (-6#1) * Var 21 / (Site 0 * Site 0 * Site 0 * Site 0);
    Num (-6#1) * Var 21 / (Site 0 * Site 0 * Site 0 * Site 0);
    Num (-6#1) * Var 21 / (Site 0 * Site 0 * Site 0 * Site 0);
    Num (-6#1) * Var 21 / (Site 0 * Site 0 * Site 0 * Site 0)];
    [Num (-6#1) * Var 21 / (Site 0 * Site 0 * Site 0 * Site 0);
    Num (-6#1) * Var 21 / (Site 0 * Site 0 * Site 0 * Site 0) + Num (2#1) / (Site 0 * Site 0 * Site 0);
    Num (-6#1) * Var 21 / (Site 0 * Site 0 * Site 0 * Site 0);
    Num (-6#1) * Var 21 / (Site 0 * Site 0 * Site 0 * Site 0);
    Num (-6#1) * Var 21 / (Site 0 * Site 0 * Site 0 * Site 0);
    Num (-6#1) * Var 21 / (Site 0 * Site 0 * Site 0 * Site 0);
    Num (-6#1) * Var 21 / (Site 0 * Site 0 * Site 0 * Site 0)];
    [Num (-6#1) * Var 21 / (Site 0 * Site 0 * Site 0 * Site 0);
    Num (-6#1) * Var 21 / (Site 0 * Site 0 * Site 0 * Site 0) + Num (2#1) / (Site 0 * Site 0 * Site 0);
    Num (-6#1) * Var 21 / (Site 0 * Site 0 * Site 0 * Site 0);
    Num (-6#1) * Var 21 / (Site 0 * Site 0 * Site 0 * Site 0);
    Num (-6#1) * Var 21 / (Site 0 * Site 0 * Site 0 * Site 0);
    Num (-6#1) * Var 21 / (Site 0 * Site 0 * Site 0 * Site 0);
    Num (-6#1) * Var 21 / (Site 0 * Site 0 * Site 0 * Site 0)];
    [Num (-6#1) * Var 21 / (Site 0 * Site 0 * Site 0 * Site 0);
    Num (-6#1) * Var 21 / (Site 0 * Site 0 * Site 0 * Site 0) + Num (2#1) / (Site 0 * Site 0 * Site 0);
    Num (-6#1) * Var 21 / (Site 0 * Site 0 * Site 0 * Site 0);
    Num (-6#1) * Var 21 / (Site 0 * Site 0 * Site 0 * Site 0);
    Num (-6#1) * Var 21 / (Site 0 * Site 0 * Site 0 * Site 0);
    Num (-6#1) * Var 21 / (Site 0 * Site 0 * Site 0 * Site 0);
    Num (-6#1) * Var 21 / (Site 0 * Site 0 * Site 0 * Site 0)];
    [Num (-6#1) * Var 21 / (Site 0 * Site 0 * Site 0 * Site 0);
    Num (-6#1) * Var 21 / (Site 0 * Site 0 * Site 0 * Site 0) + Num (2#1) / (Site 0 * Site 0 * Site 0);
    Num (-6#1) * Var 21 / (Site 0 * Site 0 * Site 0 * Site 0);
    Num (-6#1) * Var 21 / (Site 0 * Site 0 * Site 0 * Site 0);
    Num (-6#1) * Var 21 / (Site 0 * Site 0 * Site 0 * Site 0);
    Num (-6#1) * Var 21 / (Site 0 * Site 0 * Site 0 * Site 0);
    Num (-6#1) * Var 21 / (Site 0 * Site 0 * Site 0 * Site 0)]];
    [[Num (-6#1) * Var 21 / (Site 0 * Site 0 * Site 0 * Site 0);
    Num (-6#1) * Var 21 / (Site 0 * Site 0 * Site 0 * Site 0) + Num (2#1) / (Site 0 * Site 0 * Site 0);
    Num (-6#1) * Var 21 / (Site 0 * Site 0 * Site 0 * Site 0);
    Num (-6#1) * Var 21 / (Site 0 * Site 0 * Site 0 * Site 0);
    Num (-6#1) * Var 21 / (Site 0 * Site 0 * Site 0 * Site 0);
    Num (-6#1) * Var 21 / (Site 0 * Site 0 * Site 0 * Site 0);
    Num (-6#1) * Var 21 / (Site 0 * Site 0 * Site 0 * Site 0)];
    [Num (-6#1) * Var 21 / (Site 0 * Site 0 * Site 0 * Site 0) + Num (2#1) / (Site 0 * Site 0 * Site 0);
    Num (-6#1) * Var 21 / (Site 0 * Site 0 * Site 0 * Site 0) + Num (2#1) / (Site 0 * Site 0 * Site 0) + Num (2#1) / (Site 0 * Site 0 * Site 0);
    Num (-6#1) * Var 21 / (Site 0 * Site 0 * Site 0 * Site 0) + Num (2#1) / (Site 0 * Site 0 * Site 0);
    Num (-6#1) * Var 21 / (Site 0 * Site 0 * Site 0 * Site 0) + Num (2#1) / (Site 0 * Site 0 * Site 0);
    Num (-6#1) * Var 21 / (Site 0 * Site 0 * Site 0 * Site 0) + Num (2#1) / (Site 0 * Site 0 * Site 0);
    Num (-6#1) * Var 21 / (Site 0 * Site 0 * Site 0 * Site 0) + Num (2#1) / (Site 0 * Site 0 * Site 0);
    Num (-6#1) * Var 21 / (Site 0 * Site 0 * Site 0 * Site 0) + Num (2#1) / (Site 0 * Site 0 * Site 0)];
    [Num (-6#1) * Var 21 / (Site 0 * Site 0 * Site 0 * Site 0);
    Num (-6#1) * Var 21 / (Site 0 * Site 0 * Site 0 * Site 0) + Num (2#1) / (Site 0 * Site 0 * Site 0);
    Num (-6#1) * Var 21 / (Site 0 * Site 0 * Site 0 * Site 0);
    Num (-6#1) * Var 21 / (Site 0 * Site 0 * Site 0 * Site 0);
    Num (-6#1) * Var 21 / (Site 0 * Site 0 * Site 0 * Site 0);
    Num (-6#1) * Var 21 / (Site 0 * Site 0 * Site 0 * Site 0);
    Num (-6#1) * Var 21 / (Site 0 * Site 0 * Site 0 * Site 0)];
    [Num (-6#1) * Var 21 / (Site 0 * Site 0 * Site 0 * Site 0);
    Num (-6#1) * Var 21 / (Site 0 * Site 0 * Site 0 * Site 0) + Num (2#1) / (Site 0 * Site 0 * Site 0);
    Num (-6#1) * Var 21 / (Site 0 * Site 0 * Site 0 * Site 0);
    Num (-6#1) * Var 21 / (Site 0 * Site 0 * Site 0 * Site 0);
    Num (-6#1) * Var 21 / (Site 0 * Site 0 * Site 0 * Site 0);
    Num (-6#1) * Var 21 / (Site 0 * Site 0 * Site 0 * Site 0);
    Num (-6#1) * Var 21 / (Site 0 * Site 0 * Site 0 * Site 0)];
    [Num (-6#1) * Var 21 / (Site 0 * Site 0 * Site 0 * Site 0);
    Num (-6#1) * Var 21 / (Site 0 * Site 0 * Site 0 * Site 0) + Num (2#1) / (Site 0 * Site 0 * Site 0);
    Num (-6#1) * Var 21 / (Site 0 * Site 0 * Site 0 * Site 0);
    Num (-6#1) * Var 21 / (Site 0 * Site 0 * Site 0 * Site 0);
    Num (-6#1) * Var 21 / (Site 0 * Site 0 * Site 0 * Site 0);
    Num (-6#1) * Var 21 / (Site 0 * Site 0 * Site 0 * Site 0);
    Num (-6#1) * Var 21 / (Site 0 * Site 0 * Site 0 * Site 0)];
    [Num (-6#1) * Var 21 / (Site 0 * Site 0 * Site 0 * Site 0);
    Num (-6#1) * Var 21 / (Site 0 * Site 0 * Site 0 * Site 0) + Num (2#1) / (Site 0 * Site 0 * Site 0);
    Num (-6#1) * Var 21 / (Site 0 * Site 0 * Site 0 * Site 0);
    Num (-6#1) * Var 21 / (Site 0 * Site 0 * Site 0 * Site 0);
    Num (-6#1) * Var 21 / (Site 0 * Site 0 * Site 0 * Site 0);
    Num (-6#1) * Var 21 / (Site 0 * Site 0 * Site 0 * Site 0);
    Num (-6#1) * Var 21 / (Site 0 * Site 0 * Site 0 * Site 0)];
    [Num (-6#1) * Var 21 / (Site 0 * Site 0 * Site 0 * Site 0);
    Num (-6#1) * Var 21 / (Site 0 * Site 0 * Site 0 * Site 0) + Num (2#1) / (Site 0 * Site 0 * Site 0);
    Num (-6#1) * Var 21 / (Site 0 * Site 0 * Site 0 * Site 0);
    Num (-6#1) * Var 21 / (Site 0 * Site 0 * Site 0 * Site 0);
    Num (-6#1) * Var 21 / (Site 0 * Site 0 * Site 0 * Site 0);
    Num (-6#1) * Var 21 / (Site 0 * Site 0 * Site 0 * Site 0);
    Num (-6#1) * Var 21 / (Site 0 * Site 0 * Site 0 * Site 0)]];
    [[Num (-6#1) * Var 21 / (Site 0 * Site 0 * Site 0 * Site 0);
    Num (-6#1) * Var 21 / (Site 0 * Site 0 * Site 0 * Site 0) + Num (2#1) / (Site 0 * Site 0 * Site 0);
    Num (-6#1) * Var 21 / (Site 0 * Site 0 * Site 0 * Site 0);
    Num (-6#1) * Var 21 / (Site 0 * Site 0 * Site 0 * Site 0);
    Num (-6#1) * Var 21 / (Site 0 * Site 0 * Site 0 * Site 0);
    Num (-6#1) * Var 21 / (Site 0 * Site 0 * Site 0 * Site 0);
    Num (-6#1) * Var 21 / (Site 0 * Site 0 * Site 0 * Site 0)];
    [Num (-6#1) * Var 21 / (Site 0 * Site 0 * Site 0 * Site 0) + Num (2#1) / (Site 0 * Site 0 * Site 0);
    Num (-6#1) * Var 21 / (Site 0 * Site 0 * Site 0 * Site 0) + Num (2#1) / (Site 0 * Site 0 * Site 0) + Num (2#1) / (Site 0 * Site 0 * Site 0);
    Num (-6#1) * Var 21 / (Site 0 * Site 0 * Site 0 * Site 0) + Num (2#1) / (Site 0 * Site 0 * Site 0);
    Num (-6#1) * Var 21 / (Site 0 * Site 0 * Site 0 * Site 0) + Num (2#1) / (Site 0 * Site 0 * Site 0);
    Num (-6#1) * Var 21 / (Site 0 * Site 0 * Site 0 * Site 0) + Num (2#1) / (Site 0 * Site 0 * Site 0);
    Num (-6#1) * Var 21 / (Site 0 * Site 0 * Site 0 * Site 0) + Num (2#1) / (Site 0 * Site 0 * Site 0);
    Num (-6#1) * Var 21 / (Site 0 * Site 0 * Site 0 * Site 0) + Num (2#1) / (Site 0 * Site 0 * Site 0)];
    [Num (-6#1) * Var 21 / (Site 0 * Site 0 * Site 0 * Site 0);
    Num (-6#1) * Var 21 / (Site 0 * Site 0 * Site 0 * Site 0) + Num (2#1) / (Site 0 * Site 0 * Site 0);
    Num (-6#1) * Var 21 / (Site 0 * Site 0 * Site 0 * Site 0);
    Num (-6#1) * Var 21 / (Site 0 * Site 0 * Site 0 * Site 0);
    Num (-6#1) * Var 21 / (Site 0 * Site 0 * Site 0 * Site 0);
    Num (-6#1) * Var 21 / (Site 0 * Site 0 * Site 0 * Site 0);
    Num (-6#1) * Var 21 / (Site 0 * Site 0 * Site 0 * Site 0)];
    [Num (-6#1) * Var 21 / (Site 0 * Site 0 * Site 0 * Site 0);
    Num (-6#1) * Var 21 / (Site 0 * Site 0 * Site 0 * Site 0) + Num (2#1) / (Site 0 * Site 0 * Site 0);
    Num (-6#1) * Var 21 / (Site 0 * Site 0 * Site 0 * Site 0);
    Num (-6#1) * Var 21 / (Site 0 * Site 0 * Site 0 * Site 0);
    Num (-6#1) * Var 21 / (Site 0 * Site 0 * Site 0 * Site 0);
    Num (-6#1) * Var 21 / (Site 0 * Site 0 * Site 0 * Site 0);
    Num (-6#1) * Var 21 / (Site 0 * Site 0 * Site 0 * Site 0)];
    [Num (-6#1) * Var 21 / (Site 0 * Site 0 * Site 0 * Site 0);
    Num (-6#1) * Var 21 / (Site 0 * Site 0 * Site 0 * Site 0) + Num (2#1) / (Site 0 * Site 0 * Site 0);
    Num (-6#1) * Var 21 / (Site 0 * Site 0 * Site 0 * Site 0);
    Num (-6#1) * Var 21 / (Site 0 * Site 0 * Site 0 * Site 0);
    Num (-6#1) * Var 21 / (Site 0 * Site 0 * Site 0 * Site 0);
    Num (-6#1) * Var 21 / (Site 0 * Site 0 * Site 0 * Site 0);
    Num (-6#1) * Var 21 / (Site 0 * Site 0 * Site 0 * Site 0)];
    [Num (-6#1) * Var 21 / (Site 0 * Site 0 * Site 0 * Site 0);
    Num (-6#1) * Var 21 / (Site 0 * Site 0 * Site 0 * Site 0) + Num (2#1) / (Site 0 * Site 0 * Site 0);
    Num (-6#1) * Var 21 / (Site 0 * Site 0 * Site 0 * Site 0);
    Num (-6#1) * Var 21 / (Site 0 * Site 0 * Site 0 * Site 0);
    Num (-6#1) * Var 21 / (Site 0 * Site 0 * Site 0 * Site 0);
    Num (-6#1) * Var 21 / (Site 0 * Site 0 * Site 0 * Site 0);
    Num (-6#1) * Var 21 / (Site 0 * Site 0 * Site 0 * Site 0)];
    [Num (-6#1) * Var 21 / (Site 0 * Site 0 * Site 0 * Site 0);
    Num (-6#1) * Var 21 / (Site 0 * Site 0 * Site 0 * Site 0) + Num (2#1) / (Site 0 * Site 0 * Site 0);
    Num (-6#1) * Var 21 / (Site 0 * Site 0 * Site 0 * Site 0);
    Num (-6#1) * Var 21 / (Site 0 * Site 0 * Site 0 * Site 0);
    Num (-6#1) * Var 21 / (Site 0 * Site 0 * Site 0 * Site 0);
    Num (-6#1) * Var 21 / (Site 0 * Site 0 * Site 0 * Site 0);
    Num (-6#1) * Var 21 / (Site 0 * Site 0 * Site 0 * Site 0)]];
    [[Num (-6#1) * Var 21 / (Site 0 * Site 0 * Site 0 * Site 0);
    Num (-6#1) * Var 21 / (Site 0 * Site 0 * Site 0 * Site 0) + Num (2#1) / (Site 0 * Site 0 * Site 0);
    Num (-6#1) * Var 21 / (Site 0 * Site 0 * Site 0 * Site 0);
    Num (-6#1) * Var 21 / (Site 0 * Site 0 * Site 0 * Site 0);
    Num (-6#1) * Var 21 / (Site 0 * Site 0 * Site 0 * Site 0);
    Num (-6#1) * Var 21 / (Site 0 * Site 0 * Site 0 * Site 0);
    Num (-6#1) * Var 21 / (Site 0 * Site 0 * Site 0 * Site 0)];
    [Num (-6#1) * Var 21 / (Site 0 * Site 0 * Site 0 * Site 0) + Num (2#1) / (Site 0 * Site 0 * Site 0);
    Num (-6#1) * Var 21 / (Site 0 * Site 0 * Site 0 * Site 0) + Num (2#1) / (Site 0 * Site 0 * Site 0) + Num (2#1) / (Site 0 * Site 0 * Site 0);
    Num (-6#1) * Var 21 / (Site 0 * Site 0 * Site 0 * Site 0) + Num (2#1) / (Site 0 * Site 0 * Site 0);
    Num (-6#1) * Var 21 / (Site 0 * Site 0 * Site 0 * Site 0) + Num (2#1) / (Site 0 * Site 0 * Site 0);
    Num (-6#1) * Var 21 / (Site 0 * Site 0 * Site 0 * Site 0) + Num (2#1) / (Site 0 * Site 0 * Site 0);
    Num (-6#1) * Var 21 / (Site 0 * Site 0 * Site 0 * Site 0) + Num (2#1) / (Site 0 * Site 0 * Site 0);
    Num (-6#1) * Var 21 / (Site 0 * Site 0 * Site 0 * Site 0) + Num (2#1) / (Site 0 * Site 0 * Site 0)];
    [Num (-6#1) * Var 21 / (Site 0 * Site 0 * Site 0 * Site 0);
    Num (-6#1) * Var 21 / (Site 0 * Site 0 * Site 0 * Site 0) + Num (2#1) / (Site 0 * Site 0 * Site 0);
    Num (-6#1) * Var 21 / (Site 0 * Site 0 * Site 0 * Site 0);
    Num (-6#1) * Var 21 / (Site 0 * Site 0 * Site 0 * Site 0);
    Num (-6#1) * Var 21 / (Site 0 * Site 0 * Site 0 * Site 0);
    Num (-6#1) * Var 21 / (Site 0 * Site 0 * Site 0 * Site 0);
    Num (-6#1) * Var 21 / (Site 0 * Site 0 * Site 0 * Site 0)];
    [Num (-6#1) * Var 21 / (Site 0 * Site 0 * Site 0 * Site 0);
    Num (-6#1) * Var 21 / (Site 0 * Site 0 * Site 0 * Site 0) + Num (2#1) / (Site 0 * Site 0 * Site 0);
    Num (-6#1) * Var 21 / (Site 0 * Site 0 * Site 0 * Site 0);
    Num (-6#1) * Var 21 / (Site 0 * Site 0 * Site 0 * Site 0);
    Num (-6#1) * Var 21 / (Site 0 * Site 0 * Site 0 * Site 0);
    Num (-6#1) * Var 21 / (Site 0 * Site 0 * Site 0 * Site 0);
    Num (-6#1) * Var 21 / (Site 0 * Site 0 * Site 0 * Site 0)];
    [Num (-6#1) * Var 21 / (Site 0 * Site 0 * Site 0 * Site 0);
    Num (-6#1) * Var 21 / (Site 0 * Site 0 * Site 0 * Site 0) + Num (2#1) / (Site 0 * Site 0 * Site 0);
    Num (-6#1) * Var 21 / (Site 0 * Site 0 * Site 0 * Site 0);
    Num (-6#1) * Var 21 / (Site 0 * Site 0 * Site 0 * Site 0);
    Num (-6#1) * Var 21 / (Site 0 * Site 0 * Site 0 * Site 0);
    Num (-6#1) * Var 21 / (Site 0 * Site 0 * Site 0 * Site 0);
    Num (-6#1) * Var 21 / (Site 0 * Site 0 * Site 0 * Site 0)];
    [Num (-6#1) * Var 21 / (Site 0 * Site 0 * Site 0 * Site 0);
    Num (-6#1) * Var 21 / (Site 0 * Site 0 * Site 0 * Site 0) + Num (2#1) / (Site 0 * Site 0 * Site 0);
    Num (-6#1) * Var 21 / (Site 0 * Site 0 * Site 0 * Site 0);
    Num (-6#1) * Var 21 / (Site 0 * Site 0 * Site 0 * Site 0);
    Num (-6#1) * Var 21 / (Site 0 * Site 0 * Site 0 * Site 0);
    Num (-6#1) * Var 21 / (Site 0 * Site 0 * Site 0 * Site 0);
    Num (-6#1) * Var 21 / (Site 0 * Site 0 * Site 0 * Site 0)];
    [Num (-6#1) * Var 21 / (Site 0 * Site 0 * Site 0 * Site 0);
    Num (-6#1) * Var 21 / (Site 0 * Site 0 * Site 0 * Site 0) + Num (2#1) / (Site 0 * Site 0 * Site 0);
    Num (-6#1) * Var 21 / (Site 0 * Site 0 * Site 0 * Site 0);
    Num (-6#1) * Var 21 / (Site 0 * Site 0 * Site 0 * Site 0);
    Num (-6#1) * Var 21 / (Site 0 * Site 0 * Site 0 * Site 0);
    Num (-6#1) * Var 21 / (Site 0 * Site 0 * Site 0 * Site 0);
    Num (-6#1) * Var 21 / (Site 0 * Site 0 * Site 0 * Site 0)]]]].
(** sources/clinopyroxene.c 4261-4540: conCpx, inpMask THIRD, output x[i] from r *)
Definition Cpx_con_xr :=
  [Num (1#1) - Var 2 - Var 3 - Var 4 - Var 5 - Var 6 / Num (2#1) - Var 7;
    Var 7;
    Var 2;
    Var 3 - Var 6 / Num (2#1);
    Var 4 + Var 6 / Num (2#1);
    Var 5 - Var 6 / Num (2#1);
    Var 6].
(** sources/clinopyroxene.c 4261-4540: conCpx, inpMask THIRD, output dr[i][j] *)
Definition Cpx_con_dr :=
  [[Num (-1#1);
    Num (-1#1);
    Num (-1#1);
    Num (-1#1);
    Num (-1#2);
    Num (-1#1)];
    [Num (0#1);
    Num (0#1);
    Num (0#1);
    Num (0#1);
    Num (0#1);
    Num (1#1)];
    [Num (1#1);
    Num (0#1);
    Num (0#1);
    Num (0#1);
    Num (0#1);
    Num (0#1)];
    [Num (0#1);
    Num (1#1);
    Num (0#1);
    Num (0#1);
    Num (-1#2);
    Num (0#1)];
    [Num (0#1);
    Num (0#1);
    Num (1#1);
    Num (0#1);
    Num (1#2);
    Num (0#1)];
    [Num (0#1);
    Num (0#1);
    Num (0#1);
    Num (1#1);
    Num (-1#2);
    Num (0#1)];
    [Num (0#1);
    Num (0#1);
    Num (0#1);
    Num (0#1);
    Num (1#1);
    Num (0#1)]].
(** sources/clinopyroxene.c 4261-4540: x[i] from r is set to zero when it is smaller in absolute value than this number *)
Definition Cpx_con_snap : list (nat * Q) := [].
Definition conCpx : conv :=
  mkConv "clinopyroxene" 7 6 Cpx_con_r Cpx_con_x Cpx_con_dm Cpx_con_d2m Cpx_con_d3m Cpx_con_xr Cpx_con_dr Cpx_con_snap.

(** sources/cummingtonite.c 1156-1308: conCum, inpMask SECOND, output r[i] from m *)
Definition Cum_con_r :=
  [Num (2#1) * Var 21 / Site 0 - Num (1#1)].
(** sources/cummingtonite.c 1156-1308: conCum, inpMask SECOND, output x[i] from m *)
Definition Cum_con_x :=
  [Var 20 / Site 0;
    Var 21 / Site 0].
(** sources/cummingtonite.c 1156-1308: conCum, inpMask SECOND, output dm[i][j] *)
Definition Cum_con_dm :=
  [[Num (-2#1) * Var 21 / (Site 0 * Site 0);
    Num (2#1) * (Num (1#1) - Var 21 / Site 0) / Site 0]].
(** sources/cummingtonite.c 1156-1308: conCum, inpMask SECOND, output d2m[i][j][k] *)
Definition Cum_con_d2m :=
  [[[Num (4#1) * Var 21 / (Site 0 * Site 0 * Site 0);
    Num (4#1) * Var 21 / (Site 0 * Site 0 * Site 0) - Num (2#1) / (Site 0 * Site 0)];
    [Num (4#1) * Var 21 / (Site 0 * Site 0 * Site 0) - Num (2#1) / (Site 0 * Site 0);
    Num (4#1) * Var 21 / (Site 0 * Site 0 * Site 0) - Num (2#1) / (Site 0 * Site 0) - Num (2#1) / (Site 0 * Site 0)]]].
(** sources/cummingtonite.c 1156-1308: conCum, inpMask SECOND, output d3m[i][j][k][l] *)
Definition Cum_con_d3m :=
  [[[[Num (-12#1) * Var 21 / (Site 0 * Site 0 * (Site 0 * Site 0));
    Num (-12#1) * Var 21 / (Site 0 * Site 0 * (Site 0 * Site 0)) + Num (4#1) / (Site 0 * Site 0 * Site 0)];
    [Num (-12#1) * Var 21 / (Site 0 * Site 0 * (Site 0 * Site 0)) + Num (4#1) / (Site 0 * Site 0 * Site 0);
    Num (-12#1) * Var 21 / (Site 0 * Site 0 * (Site 0 * Site 0)) + Num (4#1) / (Site 0 * Site 0 * Site 0) + Num (4#1) / (Site 0 * Site 0 * Site 0)]];
    [[Num (-12#1) * Var 21 / (Site 0 * Site 0 * (Site 0 * Site 0)) + Num (4#1) / (Site 0 * Site 0 * Site 0);
    Num (-12#1) * Var 21 / (Site 0 * Site 0 * (Site 0 * Site 0)) + Num (4#1) / (Site 0 * Site 0 * Site 0) + Num (4#1) / (Site 0 * Site 0 * Site 0)];
    [Num (-12#1) * Var 21 / (Site 0 * Site 0 * (Site 0 * Site 0)) + Num (4#1) / (Site 0 * Site 0 * Site 0) + Num (4#1) / (Site 0 * Site 0 * Site 0);
    Num (-12#1) * Var 21 / (Site 0 * Site 0 * (Site 0 * Site 0)) + Num (4#1) / (Site 0 * Site 0 * Site 0) + Num (4#1) / (Site 0 * Site 0 * Site 0) + Num (4#1) / (Site 0 * Site 0 * Site 0)]]]].
(** sources/cummingtonite.c 1156-1308: conCum, inpMask THIRD, output x[i] from r *)
Definition Cum_con_xr :=
  [(Num (1#1) - Var 2) / Num (2#1);
    (Num (1#1) + Var 2) / Num (2#1)].
(** sources/cummingtonite.c 1156-1308: conCum, inpMask THIRD, output dr[i][j] *)
Definition Cum_con_dr :=
  [[Num (-1#2)];
    [Num (1#2)]].
(** sources/cummingtonite.c 1156-1308: x[i] from r is set to zero when it is smaller in absolute value than this number *)
Definition Cum_con_snap : list (nat * Q) := [].
Definition conCum : conv :=
  mkConv "cummingtonite" 2 1 Cum_con_r Cum_con_x Cum_con_dm Cum_con_d2m Cum_con_d3m Cum_con_xr Cum_con_dr Cum_con_snap.

(** sources/melilite.c 1862-2017: conMel, inpMask SECOND, output r[i] from m *)
Definition Mel_con_r :=
  [Var 21 / Site 0;
    Var 22 / Site 0;
    Var 23 / Site 0].
(** sources/melilite.c 1862-2017: conMel, inpMask SECOND, output x[i] from m *)
Definition Mel_con_x :=
  [Var 20 / Site 0;
    Var 21 / Site 0;
    Var 22 / Site 0;
    Var 23 / Site 0].
(** sources/melilite.c 1862-2017: conMel, inpMask SECOND, output dm[i][j] *)
Definition Mel_con_dm :=
  [[(- Var 21) / (Site 0 * Site 0);
    (Num (1#1) - Var 21 / Site 0) / Site 0;
    (- Var 21) / (Site 0 * Site 0);
    (- Var 21) / (Site 0 * Site 0)];
    [(- Var 22) / (Site 0 * Site 0);
    (- Var 22) / (Site 0 * Site 0);
    (Num (1#1) - Var 22 / Site 0) / Site 0;
    (- Var 22) / (Site 0 * Site 0)];
    [(- Var 23) / (Site 0 * Site 0);
    (- Var 23) / (Site 0 * Site 0);
    (- Var 23) / (Site 0 * Site 0);
    (Num (1#1) - Var 23 / Site 0) / Site 0]].
(** sources/melilite.c 1862-2017: conMel, inpMask SECOND, output d2m[i][j][k] *)
Definition Mel_con_d2m :=
  [[[Num (2#1) * Var 21 / (Site 0 * Site 0 * Site 0);
    Num (2#1) * Var 21 / (Site 0 * Site 0 * Site 0) - Num (1#1) / (Site 0 * Site 0);
    Num (2#1) * Var 21 / (Site 0 * Site 0 * Site 0);
    Num (2#1) * Var 21 / (Site 0 * Site 0 * Site 0)];
    [Num (2#1) * Var 21 / (Site 0 * Site 0 * Site 0) - Num (1#1) / (Site 0 * Site 0);
    Num (2#1) * Var 21 / (Site 0 * Site 0 * Site 0) - Num (1#1) / (Site 0 * Site 0) - Num (1#1) / (Site 0 * Site 0);
    Num (2#1) * Var 21 / (Site 0 * Site 0 * Site 0) - Num (1#1) / (Site 0 * Site 0);
    Num (2#1) * Var 21 / (Site 0 * Site 0 * Site 0) - Num (1#1) / (Site 0 * Site 0)];
    [Num (2#1) * Var 21 / (Site 0 * Site 0 * Site 0);
    Num (2#1) * Var 21 / (Site 0 * Site 0 * Site 0) - Num (1#1) / (Site 0 * Site 0);
    Num (2#1) * Var 21 / (Site 0 * Site 0 * Site 0);
    Num (2#1) * Var 21 / (Site 0 * Site 0 * Site 0)];
    [Num (2#1) * Var 21 / (Site 0 * Site 0 * Site 0);
    Num (2#1) * Var 21 / (Site 0 * Site 0 * Site 0) - Num (1#1) / (Site 0 * Site 0);
    Num (2#1) * Var 21 / (Site 0 * Site 0 * Site 0);
    Num (2#1) * Var 21 / (Site 0 * Site 0 * Site 0)]];
    [[Num (2#1) * Var 22 / (Site 0 * Site 0 * Site 0);
    Num (2#1) * Var 22 / (Site 0 * Site 0 * Site 0);
    Num (2#1) * Var 22 / (Site 0 * Site 0 * Site 0) - Num (1#1) / (Site 0 * Site 0);
    Num (2#1) * Var 22 / (Site 0 * Site 0 * Site 0)];
    [Num (2#1) * Var 22 / (Site 0 * Site 0 * Site 0);
    Num (2#1) * Var 22 / (Site 0 * Site 0 * Site 0);
    Num (2#1) * Var 22 / (Site 0 * Site 0 * Site 0) - Num (1#1) / (Site 0 * Site 0);
    Num (2#1) * Var 22 / (Site 0 * Site 0 * Site 0)];
    [Num (2#1) * Var 22 / (Site 0 * Site 0 * Site 0) - Num (1#1) / (Site 0 * Site 0);
    Num (2#1) * Var 22 / (Site 0 * Site 0 * Site 0) - Num (1#1) / (Site 0 * Site 0);
    Num (2#1) * Var 22 / (Site 0 * Site 0 * Site 0) - Num (1#1) / (Site 0 * Site 0) - Num (1#1) / (Site 0 * Site 0);
    Num (2#1) * Var 22 / (Site 0 * Site 0 * Site 0) - Num (1#1) / (Site 0 * Site 0)];
    [Num (2#1) * Var 22 / (Site 0 * Site 0 * Site 0);
    Num (2#1) * Var 22 / (Site 0 * Site 0 * Site 0);
    Num (2#1) * Var 22 / (Site 0 * Site 0 * Site 0) - Num (1#1) / (Site 0 * Site 0);
    Num (2#1) * Var 22 / (Site 0 * Site 0 * Site 0)]];
    [[Num (2#1) * Var 23 / (Site 0 * Site 0 * Site 0);
    Num (2#1) * Var 23 / (Site 0 * Site 0 * Site 0);
    Num (2#1) * Var 23 / (Site 0 * Site 0 * Site 0);
    Num (2#1) * Var 23 / (Site 0 * Site 0 * Site 0) - Num (1#1) / (Site 0 * Site 0)];
    [Num (2#1) * Var 23 / (Site 0 * Site 0 * Site 0);
    Num (2#1) * Var 23 / (Site 0 * Site 0 * Site 0);
    Num (2#1) * Var 23 / (Site 0 * Site 0 * Site 0);
    Num (2#1) * Var 23 / (Site 0 * Site 0 * Site 0) - Num (1#1) / (Site 0 * Site 0)];
    [Num (2#1) * Var 23 / (Site 0 * Site 0 * Site 0);
    Num (2#1) * Var 23 / (Site 0 * Site 0 * Site 0);
    Num (2#1) * Var 23 / (Site 0 * Site 0 * Site 0);
    Num (2#1) * Var 23 / (Site 0 * Site 0 * Site 0) - Num (1#1) / (Site 0 * Site 0)];
    [Num (2#1) * Var 23 / (Site 0 * Site 0 * Site 0) - Num (1#1) / (Site 0 * Site 0);
    Num (2#1) * Var 23 / (Site 0 * Site 0 * Site 0) - Num (1#1) / (Site 0 * Site 0);
    Num (2#1) * Var 23 / (Site 0 * Site 0 * Site 0) - Num (1#1) / (Site 0 * Site 0);
    Num (2#1) * Var 23 / (Site 0 * Site 0 * Site 0) - Num (1#1) / (Site 0 * Site 0) - Num (1#1) / (Site 0 * Site 0)]]].
(** sources/melilite.c 1862-2017: conMel, inpMask SECOND, output d3m[i][j][k][l] *)
Definition Mel_con_d3m :=
  [[[[Num (-6#1) * Var 21 / (Site 0 * Site 0 * Site 0 * Site 0);
    Num (-6#1) * Var 21 / (Site 0 * Site 0 * Site 0 * Site 0) + Num (2#1) / (Site 0 * Site 0 * Site 0);
    Num (-6#1) * Var 21 / (Site 0 * Site 0 * Site 0 * Site 0);
    Num (-6#1) * Var 21 / (Site 0 * Site 0 * Site 0 * Site 0)];
    [Num (-6#1) * Var 21 / (Site 0 * Site 0 * Site 0 * Site 0) + Num (2#1) / (Site 0 * Site 0 * Site 0);
    Num (-6#1) * Var 21 / (Site 0 * Site 0 * Site 0 * Site 0) + Num (2#1) / (Site 0 * Site 0 * Site 0) + Num (2#1) / (Site 0 * Site 0 * Site 0);
    Num (-6#1) * Var 21 / (Site 0 * Site 0 * Site 0 * Site 0) + Num (2#1) / (Site 0 * Site 0 * Site 0);
    Num (-6#1) * Var 21 / (Site 0 * Site 0 * Site 0 * Site 0) + Num (2#1) / (Site 0 * Site 0 * Site 0)];
    [Num (-6#1) * Var 21 / (Site 0 * Site 0 * Site 0 * Site 0);
    Num (-6#1) * Var 21 / (Site 0 * Site 0 * Site 0 * Site 0) + Num (2#1) / (Site 0 * Site 0 * Site 0);
    Num (-6#1) * Var 21 / (Site 0 * Site 0 * Site 0 * Site 0);
    Num (-6#1) * Var 21 / (Site 0 * Site 0 * Site 0 * Site 0)];
    [Num (-6#1) * Var 21 / (Site 0 * Site 0 * Site 0 * Site 0);
    Num (-6#1) * Var 21 / (Site 0 * Site 0 * Site 0 * Site 0) + Num (2#1) / (Site 0 * Site 0 * Site 0);
    Num (-6#1) * Var 21 / (Site 0 * Site 0 * Site 0 * Site 0);
    Num (-6#1) * Var 21 / (Site 0 * Site 0 * Site 0 * Site 0)]];
    [[Num (-6#1) * Var 21 / (Site 0 * Site 0 * Site 0 * Site 0) + Num (2#1) / (Site 0 * Site 0 * Site 0);
    Num (-6#1) * Var 21 / (Site 0 * Site 0 * Site 0 * Site 0) + Num (2#1) / (Site 0 * Site 0 * Site 0) + Num (2#1) / (Site 0 * Site 0 * Site 0);
    Num (-6#1) * Var 21 / (Site 0 * Site 0 * Site 0 * Site 0) + Num (2#1) / (Site 0 * Site 0 * Site 0);
    Num (-6#1) * Var 21 / (Site 0 * Site 0 * Site 0 * Site 0) + Num (2#1) / (Site 0 * Site 0 * Site 0)];
    [Num (-6#1) * Var 21 / (Site 0 * Site 0 * Site 0 * Site 0) + Num (2#1) / (Site 0 * Site 0 * Site 0) + Num (2#1) / (Site 0 * Site 0 * Site 0);
    Num (-6#1) * Var 21 / (Site 0 * Site 0 * Site 0 * Site 0) + Num (2#1) / (Site 0 * Site 0 * Site 0) + Num (2#1) / (Site 0 * Site 0 * Site 0) + Num (2#1) / (Site 0 * Site 0 * Site 0);
    Num (-6#1) * Var 21 / (Site 0 * Site 0 * Site 0 * Site 0) + Num (2#1) / (Site 0 * Site 0 * Site 0) + Num (2#1) / (Site 0 * Site 0 * Site 0);
    Num (-6#1) * Var 21 / (Site 0 * Site 0 * Site 0 * Site 0) + Num (2#1) / (Site 0 * Site 0 * Site 0) + Num (2#1) / (Site 0 * Site 0 * Site 0)];
    [Num (-6#1) * Var 21 / (Site 0 * Site 0 * Site 0 * Site 0) + Num (2#1) / (Site 0 * Site 0 * Site 0);
    Num (-6#1) * Var 21 / (Site 0 * Site 0 * Site 0 * Site 0) + Num (2#1) / (Site 0 * Site 0 * Site 0) + Num (2#1) / (Site 0 * Site 0 * Site 0);
    Num (-6#1) * Var 21 / (Site 0 * Site 0 * Site 0 * Site 0) + Num (2#1) / (Site 0 * Site 0 * Site 0);
    Num (-6#1) * Var 21 / (Site 0 * Site 0 * Site 0 * Site 0) + Num (2#1) / (Site 0 * Site 0 * Site 0)];
    [Num (-6#1) * Var 21 / (Site 0 * Site 0 * Site 0 * Site 0) + Num (2#1) / (Site 0 * Site 0 * Site 0);
    Num (-6#1) * Var 21 / (Site 0 * Site 0 * Site 0 * Site 0) + Num (2#1) / (Site 0 * Site 0 * Site 0) + Num (2#1) / (Site 0 * Site 0 * Site 0);
    Num (-6#1) * Var 21 / (Site 0 * Site 0 * Site 0 * Site 0) + Num (2#1) / (Site 0 * Site 0 * Site 0);
    Num (-6#1) * Var 21 / (Site 0 * Site 0 * Site 0 * Site 0) + Num (2#1) / (Site 0 * Site 0 * Site 0)]];
    [[Num (-6#1) * Var 21 / (Site 0 * Site 0 * Site 0 * Site 0);
    Num (-6#1) * Var 21 / (Site 0 * Site 0 * Site 0 * Site 0) + Num (2#1) / (Site 0 * Site 0 * Site 0);
    Num (-6#1) * Var 21 / (Site 0 * Site 0 * Site 0 * Site 0);
    Num (-6#1) * Var 21 / (Site 0 * Site 0 * Site 0 * Site 0)];
    [Num (-6#1) * Var 21 / (Site 0 * Site 0 * Site 0 * Site 0) + Num (2#1) / (Site 0 * Site 0 * Site 0);
    Num (-6#1) * Var 21 / (Site 0 * Site 0 * Site 0 * Site 0) + Num (2#1) / (Site 0 * Site 0 * Site 0) + Num (2#1) / (Site 0 * Site 0 * Site 0);
    Num (-6#1) * Var 21 / (Site 0 * Site 0 * Site 0 * Site 0) + Num (2#1) / (Site 0 * Site 0 * Site 0);
    Num (-6#1) * Var 21 / (Site 0 * Site 0 * Site 0 * Site 0) + Num (2#1) / (Site 0 * Site 0 * Site 0)];
    [Num (-6#1) * Var 21 / (Site 0 * Site 0 * Site 0 * Site 0);
    Num (-6#1) * Var 21 / (Site 0 * Site 0 * Site 0 * Site 0) + Num (2#1) / (Site 0 * Site 0 * Site 0);
    Num (-6#1) * Var 21 / (Site 0 * Site 0 * Site 0 * Site 0);
    Num (-6#1) * Var 21 / (Site 0 * Site 0 * Site 0 * Site 0)];
    [Num (-6#1) * Var 21 / (Site 0 * Site 0 * Site 0 * Site 0);
    Num (-6#1) * Var 21 / (Site 0 * Site 0 * Site 0 * Site 0) + Num (2#1) / (Site 0 * Site 0 * Site 0);
    Num (-6#1) * Var 21 / (Site 0 * Site 0 * Site 0 * Site 0);
    Num (-6#1) * Var 21 / (Site 0 * Site 0 * Site 0 * Site 0)]];
    [[Num (-6#1) * Var 21 / (Site 0 * Site 0 * Site 0 * Site 0);
    Num (-6#1) * Var 21 / (Site 0 * Site 0 * Site 0 * Site 0) + Num (2#1) / (Site 0 * Site 0 * Site 0);
    Num (-6#1) * Var 21 / (Site 0 * Site 0 * Site 0 * Site 0);
    Num (-6#1) * Var 21 / (Site 0 * Site 0 * Site 0 * Site 0)];
    [Num (-6#1) * Var 21 / (Site 0 * Site 0 * Site 0 * Site 0) + Num (2#1) / (Site 0 * Site 0 * Site 0);
    Num (-6#1) * Var 21 / (Site 0 * Site 0 * Site 0 * Site 0) + Num (2#1) / (Site 0 * Site 0 * Site 0) + Num (2#1) / (Site 0 * Site 0 * Site 0);
    Num (-6#1) * Var 21 / (Site 0 * Site 0 * Site 0 * Site 0) + Num (2#1) / (Site 0 * Site 0 * Site 0);
    Num (-6#1) * Var 21 / (Site 0 * Site 0 * Site 0 * Site 0) + Num (2#1) / (Site 0 * Site 0 * Site 0)];
    [Num (-6#1) * Var 21 / (Site 0 * Site 0 * Site 0 * Site 0);
    Num (-6#1) * Var 21 / (Site 0 * Site 0 * Site 0 * Site 0) + Num (2#1) / (Site 0 * Site 0 * Site 0);
    Num (-6#1) * Var 21 / (Site 0 * Site 0 * Site 0 * Site 0);
    Num (-6#1) * Var 21 / (Site 0 * Site 0 * Site 0 * Site 0)];
    [Num (-6#1) * Var 21 / (Site 0 * Site 0 * Site 0 * Site 0);
    Num (-6#1) * Var 21 / (Site 0 * Site 0 * Site 0 * Site 0) + Num (2#1) / (Site 0 * Site 0 * Site 0);
    Num (-6#1) * Var 21 / (Site 0 * Site 0 * Site 0 * Site 0);
    Num (-6#1) * Var 21 / (Site 0 * Site 0 * Site 0 * Site 0)]]];
    [[[Num (-6#1) * Var 22 / (Site 0 * Site 0 * Site 0 * Site 0);
    Num (-6#1) * Var 22 / (Site 0 * Site 0 * Site 0 * Site 0);
    Num (-6#1) * Var 22 / (Site 0 * Site 0 * Site 0 * Site 0) + Num (2#1) / (Site 0 * Site 0 * Site 0);
    Num (-6#1) * Var 22 / (Site 0 * Site 0 * Site 0 * Site 0)];
    [Num (-6#1) * Var 22 / (Site 0 * Site 0 * Site 0 * Site 0);
    Num (-6#1) * Var 22 / (Site 0 * Site 0 * Site 0 * Site 0);
    Num (-6#1) * Var 22 / (Site 0 * Site 0 * Site 0 * Site 0) + Num (2#1) / (Site 0 * Site 0 * Site 0);
    Num (-6#1) * Var 22 / (Site 0 * Site 0 * Site 0 * Site 0)];
    [Num (-6#1) * Var 22 / (Site 0 * Site 0 * Site 0 * Site 0) + Num (2#1) / (Site 0 * Site 0 * Site 0);
    Num (-6#1) * Var 22 / (Site 0 * Site 0 * Site 0 * Site 0) + Num (2#1) / (Site 0 * Site 0 * Site 0);
    Num (-6#1) * Var 22 / (Site 0 * Site 0 * Site 0 * Site 0) + Num (2#1) / (Site 0 * Site 0 * Site 0) + Num (2#1) / (Site 0 * Site 0 * Site 0);
    Num (-6#1) * Var 22 / (Site 0 * Site 0 * Site 0 * Site 0) + Num (2#1) / (Site 0 * Site 0 * Site 0)];
    [Num (-6#1) * Var 22 / (Site 0 * Site 0 * Site 0 * Site 0);
    Num (-6#1) * Var 22 / (Site 0 * Site 0 * Site 0 * Site 0);
    Num (-6#1) * Var 22 / (Site 0 * Site 0 * Site 0 * Site 0) + Num (2#1) / (Site 0 * Site 0 * Site 0);
    Num (-6#1) * Var 22 / (Site 0 * Site 0 * Site 0 * Site 0)]];
    [[Num (-6#1) * Var 22 / (Site 0 * Site 0 * Site 0 * Site 0);
    Num (-6#1) * Var 22 / (Site 0 * Site 0 * Site 0 * Site 0);
    Num (-6#1) * Var 22 / (Site 0 * Site 0 * Site 0 * Site 0) + Num (2#1) / (Site 0 * Site 0 * Site 0);
    Num (-6#1) * Var 22 / (Site 0 * Site 0 * Site 0 * Site 0)];
    [Num (-6#1) * Var 22 / (Site 0 * Site 0 * Site 0 * Site 0);
    Num (-6#1) * Var 22 / (Site 0 * Site 0 * Site 0 * Site 0);
    Num (-6#1) * Var 22 / (Site 0 * Site 0 * Site 0 * Site 0) + Num (2#1) / (Site 0 * Site 0 * Site 0);
    Num (-6#1) * Var 22 / (Site 0 * Site 0 * Site 0 * Site 0)];
    [Num (-6#1) * Var 22 / (Site 0 * Site 0 * Site 0 * Site 0) + Num (2#1) / (Site 0 * Site 0 * Site 0);
    Num (-6#1) * Var 22 / (Site 0 * Site 0 * Site 0 * Site 0) + Num (2#1) / (Site 0 * Site 0 * Site 0);
    Num (-6#1) * Var 22 / (Site 0 * Site 0 * Site 0 * Site 0) + Num (2#1) / (Site 0 * Site 0 * Site 0) + Num (2#1) / (Site 0 * Site 0 * Site 0);
    Num (-6#1) * Var 22 / (Site 0 * Site 0 * Site 0 * Site 0) + Num (2#1) / (Site 0 * Site 0 * Site 0)];
    [Num (-6#1) * Var 22 / (Site 0 * Site 0 * Site 0 * Site 0);
    Num (-6#1) * Var 22 / (Site 0 * Site 0 * Site 0 * Site 0);
    Num (-6#1) * Var 22 / (Site 0 * Site 0 * Site 0 * Site 0) + Num (2#1) / (Site 0 * Site 0 * Site 0);
    Num (-6#1) * Var 22 / (Site 0 * Site 0 * Site 0 * Site 0)]];
    [[Num (-6#1) * Var 22 / (Site 0 * Site 0 * Site 0 * Site 0) + Num (2#1) / (Site 0 * Site 0 * Site 0);
    Num (-6#1) * Var 22 / (Site 0 * Site 0 * Site 0 * Site 0) + Num (2#1) / (Site 0 * Site 0 * Site 0);
    Num (-6#1) * Var 22 / (Site 0 * Site 0 * Site 0 * Site 0) + Num (2#1) / (Site 0 * Site 0 * Site 0) + Num (2#1) / (Site 0 * Site 0 * Site 0);
    Num (-6#1) * Var 22 / (Site 0 * Site 0 * Site 0 * Site 0) + Num (2#1) / (Site 0 * Site 0 * Site 0)];
    [Num (-6#1) * Var 22 / (Site 0 * Site 0 * Site 0 * Site 0) + Num (2#1) / (Site 0 * Site 0 * Site 0);
    Num (-6#1) * Var 22 / (Site 0 * Site 0 * Site 0 * Site 0) + Num (2#1) / (Site 0 * Site 0 * Site 0);
    Num (-6#1) * Var 22 / (Site 0 * Site 0 * Site 0 * Site 0) + Num (2#1) / (Site 0 * Site 0 * Site 0) + Num (2#1) / (Site 0 * Site 0 * Site 0);
    Num (-6#1) * Var 22 / (Site 0 * Site 0 * Site 0 * Site 0) + Num (2#1) / (Site 0 * Site 0 * Site 0)];
    [Num (-6#1) * Var 22 / (Site 0 * Site 0 * Site 0 * Site 0) + Num (2#1) / (Site 0 * Site 0 * Site 0) + Num (2#1) / (Site 0 * Site 0 * Site 0);
    Num (-6#1) * Var 22 / (Site 0 * Site 0 * Site 0 * Site 0) + Num (2#1) / (Site 0 * Site 0 * Site 0) + Num (2#1) / (Site 0 * Site 0 * Site 0);
    Num (-6#1) * Var 22 / (Site 0 * Site 0 * Site 0 * Site 0) + Num (2#1) / (Site 0 * Site 0 * Site 0) + Num (2#1) / (Site 0 * Site 0 * Site 0) + Num (2#1) / (Site 0 * Site 0 * Site 0);
    Num (-6#1) * Var 22 / (Site 0 * Site 0 * Site 0 * Site 0) + Num (2#1) / (Site 0 * Site 0 * Site 0) + Num (2#1) / (Site 0 * Site 0 * Site 0)];
    [Num (-6#1) * Var 22 / (Site 0 * Site 0 * Site 0 * Site 0) + Num (2#1) / (Site 0 * Site 0 * Site 0);
    Num (-6#1) * Var 22 / (Site 0 * Site 0 * Site 0 * Site 0) + Num (2#1) / (Site 0 * Site 0 * Site 0);
    Num (-6#1) * Var 22 / (Site 0 * Site 0 * Site 0 * Site 0) + Num (2#1) / (Site 0 * Site 0 * Site 0) + Num (2#1) / (Site 0 * Site 0 * Site 0);
    Num (-6#1) * Var 22 / (Site 0 * Site 0 * Site 0 * Site 0) + Num (2#1) / (Site 0 * Site 0 * Site 0)]];
    [[Num (-6#1) * Var 22 / (Site 0 * Site 0 * Site 0 * Site 0);
    Num (-6#1) * Var 22 / (Site 0 * Site 0 * Site 0 * Site 0);
    Num (-6#1) * Var 22 / (Site 0 * Site 0 * Site 0 * Site 0) + Num (2#1) / (Site 0 * Site 0 * Site 0);
    Num (-6#1) * Var 22 / (Site 0 * Site 0 * Site 0 * Site 0)];
    [Num (-6#1) * Var 22 / (Site 0 * Site 0 * Site 0 * Site 0);
    Num (-6#1) * Var 22 / (Site 0 * Site 0 * Site 0 * Site 0);
    Num (-6#1) * Var 22 / (Site 0 * Site 0 * Site 0 * Site 0) + Num (2#1) / (Site 0 * Site 0 * Site 0);
    Num (-6#1) * Var 22 / (Site 0 * Site 0 * Site 0 * Site 0)];
    [Num (-6#1) * Var 22 / (Site 0 * Site 0 * Site 0 * Site 0) + Num (2#1) / (Site 0 * Site 0 * Site 0);
    Num (-6#1) * Var 22 / (Site 0 * Site 0 * Site 0 * Site 0) + Num (2#1) / (Site 0 * Site 0 * Site 0);
    Num (-6#1) * Var 22 / (Site 0 * Site 0 * Site 0 * Site 0) + Num (2#1) / (Site 0 * Site 0 * Site 0) + Num (2#1) / (Site 0 * Site 0 * Site 0);
    Num (-6#1) * Var 22 / (Site 0 * Site 0 * Site 0 * Site 0) + Num (2#1) / (Site 0 * Site 0 * Site 0)];
    [Num (-6#1) * Var 22 / (Site 0 * Site 0 * Site 0 * Site 0);
    Num (-6#1) * Var 22 / (Site 0 * Site 0 * Site 0 * Site 0);
    Num (-6#1) * Var 22 / (Site 0 * Site 0 * Site 0 * Site 0) + Num (2#1) / (Site 0 * Site 0 * Site 0);
    Num (-6#1) * Var 22 / (Site 0 * Site 0 * Site 0 * Site 0)]]];
    [[[Num (-6#1) * Var 23 / (Site 0 * Site 0 * Site 0 * Site 0);
    Num (-6#1) * Var 23 / (Site 0 * Site 0 * Site 0 * Site 0);
    Num (-6#1) * Var 23 / (Site 0 * Site 0 * Site 0 * Site 0);
    Num (-6#1) * Var 23 / (Site 0 * Site 0 * Site 0 * Site 0) + Num (2#1) / (Site 0 * Site 0 * Site 0)];
    [Num (-6#1) * Var 23 / (Site 0 * Site 0 * Site 0 * Site 0);
    Num (-6#1) * Var 23 / (Site 0 * Site 0 * Site 0 * Site 0);
    Num (-6#1) * Var 23 / (Site 0 * Site 0 * Site 0 * Site 0);
    Num (-6#1) * Var 23 / (Site 0 * Site 0 * Site 0 * Site 0) + Num (2#1) / (Site 0 * Site 0 * Site 0)];
    [Num (-6#1) * Var 23 / (Site 0 * Site 0 * Site 0 * Site 0);
    Num (-6#1) * Var 23 / (Site 0 * Site 0 * Site 0 * Site 0);
    Num (-6#1) * Var 23 / (Site 0 * Site 0 * Site 0 * Site 0);
    Num (-6#1) * Var 23 / (Site 0 * Site 0 * Site 0 * Site 0) + Num (2#1) / (Site 0 * Site 0 * Site 0)];
    [Num (-6#1) * Var 23 / (Site 0 * Site 0 * Site 0 * Site 0) + Num (2#1) / (Site 0 * Site 0 * Site 0);
    Num (-6#1) * Var 23 / (Site 0 * Site 0 * Site 0 * Site 0) + Num (2#1) / (Site 0 * Site 0 * Site 0);
    Num (-6#1) * Var 23 / (Site 0 * Site 0 * Site 0 * Site 0) + Num (2#1) / (Site 0 * Site 0 * Site 0);
    Num (-6#1) * Var 23 / (Site 0 * Site 0 * Site 0 * Site 0) + Num (2#1) / (Site 0 * Site 0 * Site 0) + Num (2#1) / (Site 0 * Site 0 * Site 0)]];
    [[Num (-6#1) * Var 23 / (Site 0 * Site 0 * Site 0 * Site 0);
    Num (-6#1) * Var 23 / (Site 0 * Site 0 * Site 0 * Site 0);
    Num (-6#1) * Var 23 / (Site 0 * Site 0 * Site 0 * Site 0);
    Num (-6#1) * Var 23 / (Site 0 * Site 0 * Site 0 * Site 0) + Num (2#1) / (Site 0 * Site 0 * Site 0)];
    [Num (-6#1) * Var 23 / (Site 0 * Site 0 * Site 0 * Site 0);
    Num (-6#1) * Var 23 / (Site 0 * Site 0 * Site 0 * Site 0);
    Num (-6#1) * Var 23 / (Site 0 * Site 0 * Site 0 * Site 0);
    Num (-6#1) * Var 23 / (Site 0 * Site 0 * Site 0 * Site 0) + Num (2#1) / (Site 0 * Site 0 * Site 0)];
    [Num (-6#1) * Var 23 / (Site 0 * Site 0 * Site 0 * Site 0);
    Num (-6#1) * Var 23 / (Site 0 * Site 0 * Site 0 * Site 0);
    Num (-6#1) * Var 23 / (Site 0 * Site 0 * Site 0 * Site 0);
    Num (-6#1) * Var 23 / (Site 0 * Site 0 * Site 0 * Site 0) + Num (2#1) / (Site 0 * Site 0 * Site 0)];
    [Num (-6#1) * Var 23 / (Site 0 * Site 0 * Site 0 * Site 0) + Num (2#1) / (Site 0 * Site 0 * Site 0);
    Num (-6#1) * Var 23 / (Site 0 * Site 0 * Site 0 * Site 0) + Num (2#1) / (Site 0 * Site 0 * Site 0);
    Num (-6#1) * Var 23 / (Site 0 * Site 0 * Site 0 * Site 0) + Num (2#1) / (Site 0 * Site 0 * Site 0);
    Num (-6#1) * Var 23 / (Site 0 * Site 0 * Site 0 * Site 0) + Num (2#1) / (Site 0 * Site 0 * Site 0) + Num (2#1) / (Site 0 * Site 0 * Site 0)]];
    [[Num (-6#1) * Var 23 / (Site 0 * Site 0 * Site 0 * Site 0);
    Num (-6#1) * Var 23 / (Site 0 * Site 0 * Site 0 * Site 0);
    Num (-6#1) * Var 23 / (Site 0 * Site 0 * Site 0 * Site 0);
    Num (-6#1) * Var 23 / (Site 0 * Site 0 * Site 0 * Site 0) + Num (2#1) / (Site 0 * Site 0 * Site 0)];
    [Num (-6#1) * Var 23 / (Site 0 * Site 0 * Site 0 * Site 0);
    Num (-6#1) * Var 23 / (Site 0 * Site 0 * Site 0 * Site 0);
    Num (-6#1) * Var 23 / (Site 0 * Site 0 * Site 0 * Site 0);
    Num (-6#1) * Var 23 / (Site 0 * Site 0 * Site 0 * Site 0) + Num (2#1) / (Site 0 * Site 0 * Site 0)];
    [Num (-6#1) * Var 23 / (Site 0 * Site 0 * Site 0 * Site 0);
    Num (-6#1) * Var 23 / (Site 0 * Site 0 * Site 0 * Site 0);
    Num (-6#1) * Var 23 / (Site 0 * Site 0 * Site 0 * Site 0);
    Num (-6#1) * Var 23 / (Site 0 * Site 0 * Site 0 * Site 0) + Num (2#1) / (Site 0 * Site 0 * Site 0)];
    [Num (-6#1) * Var 23 / (Site 0 * Site 0 * Site 0 * Site 0) + Num (2#1) / (Site 0 * Site 0 * Site 0);
    Num (-6#1) * Var 23 / (Site 0 * Site 0 * Site 0 * Site 0) + Num (2#1) / (Site 0 * Site 0 * Site 0);
    Num (-6#1) * Var 23 / (Site 0 * Site 0 * Site 0 * Site 0) + Num (2#1) / (Site 0 * Site 0 * Site 0);
    Num (-6#1) * Var 23 / (Site 0 * Site 0 * Site 0 * Site 0) + Num (2#1) / (Site 0 * Site 0 * Site 0) + Num (2#1) / (Site 0 * Site 0 * Site 0)]];
    [[Num (-6#1) * Var 23 / (Site 0 * Site 0 * Site 0 * Site 0) + Num (2#1) / (Site 0 * Site 0 * Site 0);
    Num (-6#1) * Var 23 / (Site 0 * Site 0 * Site 0 * Site 0) + Num (2#1) / (Site 0 * Site 0 * Site 0);
    Num (-6#1) * Var 23 / (Site 0 * Site 0 * Site 0 * Site 0) + Num (2#1) / (Site 0 * Site 0 * Site 0);
    Num (-6#1) * Var 23 / (Site 0 * Site 0 * Site 0 * Site 0) + Num (2#1) / (Site 0 * Site 0 * Site 0) + Num (2#1) / (Site 0 * Site 0 * Site 0)];
    [Num (-6#1) * Var 23 / (Site 0 * Site 0 * Site 0 * Site 0) + Num (2#1) / (Site 0 * Site 0 * Site 0);
    Num (-6#1) * Var 23 / (Site 0 * Site 0 * Site 0 * Site 0) + Num (2#1) / (Site 0 * Site 0 * Site 0);
    Num (-6#1) * Var 23 / (Site 0 * Site 0 * Site 0 * Site 0) + Num (2#1) / (Site 0 * Site 0 * Site 0);
    Num (-6#1) * Var 23 / (Site 0 * Site 0 * Site 0 * Site 0) + Num (2#1) / (Site 0 * Site 0 * Site 0) + Num (2#1) / (Site 0 * Site 0 * Site 0)];
    [Num (-6#1) * Var 23 / (Site 0 * Site 0 * Site 0 * Site 0) + Num (2#1) / (Site 0 * Site 0 * Site 0);
    Num (-6#1) * Var 23 / (Site 0 * Site 0 * Site 0 * Site 0) + Num (2#1) / (Site 0 * Site 0 * Site 0);
    Num (-6#1) * Var 23 / (Site 0 * Site 0 * Site 0 * Site 0) + Num (2#1) / (Site 0 * Site 0 * Site 0);
    Num (-6#1) * Var 23 / (Site 0 * Site 0 * Site 0 * Site 0) + Num (2#1) / (Site 0 * Site 0 * Site 0) + Num (2#1) / (Site 0 * Site 0 * Site 0)];
    [Num (-6#1) * Var 23 / (Site 0 * Site 0 * Site 0 * Site 0) + Num (2#1) / (Site 0 * Site 0 * Site 0) + Num (2#1) / (Site 0 * Site 0 * Site 0);
    Num (-6#1) * Var 23 / (Site 0 * Site 0 * Site 0 * Site 0) + Num (2#1) / (Site 0 * Site 0 * Site 0) + Num (2#1) / (Site 0 * Site 0 * Site 0);
    Num (-6#1) * Var 23 / (Site 0 * Site 0 * Site 0 * Site 0) + Num (2#1) / (Site 0 * Site 0 * Site 0) + Num (2#1) / (Site 0 * Site 0 * Site 0);
    Num (-6#1) * Var 23 / (Site 0 * Site 0 * Site 0 * Site 0) + Num (2#1) / (Site 0 * Site 0 * Site 0) + Num (2#1) / (Site 0 * Site 0 * Site 0) + Num (2#1) / (Site 0 * Site 0 * Site 0)]]]].
(** sources/melilite.c 1862-2017: conMel, inpMask THIRD, output x[i] from r *)
Definition Mel_con_xr :=
  [Num (1#1) - Var 2 - Var 3 - Var 4;
    Var 2;
    Var 3;
    Var 4].
(** sources/melilite.c 1862-2017: conMel, inpMask THIRD, output dr[i][j] *)
Definition Mel_con_dr :=
  [[Num (-1#1);
    Num (-1#1);
    Num (-1#1)];
    [Num (1#1);
    Num (0#1);
    Num (0#1)];
    [Num (0#1);
    Num (1#1);
    Num (0#1)];
    [Num (0#1);
    Num (0#1);
    Num (1#1)]].
(** sources/melilite.c 1862-2017: x[i] from r is set to zero when it is smaller in absolute value than this number *)
Definition Mel_con_snap : list (nat * Q) := [].
Definition conMel : conv :=
  mkConv "melilite" 4 3 Mel_con_r Mel_con_x Mel_con_dm Mel_con_d2m Mel_con_d3m Mel_con_xr Mel_con_dr Mel_con_snap.

(** sources/nepheline.c 1395-1580: conNph, inpMask SECOND, output r[i] from m *)
Definition Nph_con_r :=
  [Var 21 / Site 0;
    Var 22 / Site 0;
    Var 23 / Site 0].
(** sources/nepheline.c 1395-1580: conNph, inpMask SECOND, output x[i] from m *)
Definition Nph_con_x :=
  [Var 20 / Site 0;
    Var 21 / Site 0;
    Var 22 / Site 0;
    Var 23 / Site 0].
(** sources/nepheline.c 1395-1580: conNph, inpMask SECOND, output dm[i][j] *)
Definition Nph_con_dm :=
  [[(- Var 21) / (Site 0 * Site 0);
    (Num (1#1) - Var 21 / Site 0) / Site 0;
    (- Var 21) / (Site 0 * Site 0);
    (- Var 21) / (Site 0 * Site 0)];
    [(- Var 22) / (Site 0 * Site 0);
    (- Var 22) / (Site 0 * Site 0);
    (Num (1#1) - Var 22 / Site 0) / Site 0;
    (- Var 22) / (Site 0 * Site 0)];
    [(- Var 23) / (Site 0 * Site 0);
    (- Var 23) / (Site 0 * Site 0);
    (- Var 23) / (Site 0 * Site 0);
    (Num (1#1) - Var 23 / Site 0) / Site 0]].
(** sources/nepheline.c 1395-1580: conNph, inpMask SECOND, output d2m[i][j][k] *)
Definition Nph_con_d2m :=
  [[[Num (2#1) * Var 21 / (Site 0 * Site 0 * Site 0);
    Num (2#1) * Var 21 / (Site 0 * Site 0 * Site 0) - Num (1#1) / (Site 0 * Site 0);
    Num (2#1) * Var 21 / (Site 0 * Site 0 * Site 0);
    Num (2#1) * Var 21 / (Site 0 * Site 0 * Site 0)];
    [Num (2#1) * Var 21 / (Site 0 * Site 0 * Site 0) - Num (1#1) / (Site 0 * Site 0);
    Num (2#1) * Var 21 / (Site 0 * Site 0 * Site 0) - Num (1#1) / (Site 0 * Site 0) - Num (1#1) / (Site 0 * Site 0);
    Num (2#1) * Var 21 / (Site 0 * Site 0 * Site 0) - Num (1#1) / (Site 0 * Site 0);
    Num (2#1) * Var 21 / (Site 0 * Site 0 * Site 0) - Num (1#1) / (Site 0 * Site 0)];
    [Num (2#1) * Var 21 / (Site 0 * Site 0 * Site 0);
    Num (2#1) * Var 21 / (Site 0 * Site 0 * Site 0) - Num (1#1) / (Site 0 * Site 0);
    Num (2#1) * Var 21 / (Site 0 * Site 0 * Site 0);
    Num (2#1) * Var 21 / (Site 0 * Site 0 * Site 0)];
    [Num (2#1) * Var 21 / (Site 0 * Site 0 * Site 0);
    Num (2#1) * Var 21 / (Site 0 * Site 0 * Site 0) - Num (1#1) / (Site 0 * Site 0);
    Num (2#1) * Var 21 / (Site 0 * Site 0 * Site 0);
    Num (2#1) * Var 21 / (Site 0 * Site 0 * Site 0)]];
    [[Num (2#1) * Var 22 / (Site 0 * Site 0 * Site 0);
    Num (2#1) * Var 22 / (Site 0 * Site 0 * Site 0);
    Num (2#1) * Var 22 / (Site 0 * Site 0 * Site 0) - Num (1#1) / (Site 0 * Site 0);
    Num (2#1) * Var 22 / (Site 0 * Site 0 * Site 0)];
    [Num (2#1) * Var 22 / (Site 0 * Site 0 * Site 0);
    Num (2#1) * Var 22 / (Site 0 * Site 0 * Site 0);
    Num (2#1) * Var 22 / (Site 0 * Site 0 * Site 0) - Num (1#1) / (Site 0 * Site 0);
    Num (2#1) * Var 22 / (Site 0 * Site 0 * Site 0)];
    [Num (2#1) * Var 22 / (Site 0 * Site 0 * Site 0) - Num (1#1) / (Site 0 * Site 0);
    Num (2#1) * Var 22 / (Site 0 * Site 0 * Site 0) - Num (1#1) / (Site 0 * Site 0);
    Num (2#1) * Var 22 / (Site 0 * Site 0 * Site 0) - Num (1#1) / (Site 0 * Site 0) - Num (1#1) / (Site 0 * Site 0);
    Num (2#1) * Var 22 / (Site 0 * Site 0 * Site 0) - Num (1#1) / (Site 0 * Site 0)];
    [Num (2#1) * Var 22 / (Site 0 * Site 0 * Site 0);
    Num (2#1) * Var 22 / (Site 0 * Site 0 * Site 0);
    Num (2#1) * Var 22 / (Site 0 * Site 0 * Site 0) - Num (1#1) / (Site 0 * Site 0);
    Num (2#1) * Var 22 / (Site 0 * Site 0 * Site 0)]];
    [[Num (2#1) * Var 23 / (Site 0 * Site 0 * Site 0);
    Num (2#1) * Var 23 / (Site 0 * Site 0 * Site 0);
    Num (2#1) * Var 23 / (Site 0 * Site 0 * Site 0);
    Num (2#1) * Var 23 / (Site 0 * Site 0 * Site 0) - Num (1#1) / (Site 0 * Site 0)];
    [Num (2#1) * Var 23 / (Site 0 * Site 0 * Site 0);
    Num (2#1) * Var 23 / (Site 0 * Site 0 * Site 0);
    Num (2#1) * Var 23 / (Site 0 * Site 0 * Site 0);
    Num (2#1) * Var 23 / (Site 0 * Site 0 * Site 0) - Num (1#1) / (Site 0 * Site 0)];
    [Num (2#1) * Var 23 / (Site 0 * Site 0 * Site 0);
    Num (2#1) * Var 23 / (Site 0 * Site 0 * Site 0);
    Num (2#1) * Var 23 / (Site 0 * Site 0 * Site 0);
    Num (2#1) * Var 23 / (Site 0 * Site 0 * Site 0) - Num (1#1) / (Site 0 * Site 0)];
    [Num (2#1) * Var 23 / (Site 0 * Site 0 * Site 0) - Num (1#1) / (Site 0 * Site 0);
    Num (2#1) * Var 23 / (Site 0 * Site 0 * Site 0) - Num (1#1) / (Site 0 * Site 0);
    Num (2#1) * Var 23 / (Site 0 * Site 0 * Site 0) - Num (1#1) / (Site 0 * Site 0);
    Num (2#1) * Var 23 / (Site 0 * Site 0 * Site 0) - Num (1#1) / (Site 0 * Site 0) - Num (1#1) / (Site 0 * Site 0)]]].
(** sources/nepheline.c 1395-1580: conNph, inpMask SECOND, output d3m[i][j][k][l] *)
Definition Nph_con_d3m :=
  [[[[Num (-6#1) * Var 21 / (Site 0 * Site 0 * Site 0 * Site 0);
    Num (-6#1) * Var 21 / (Site 0 * Site 0 * Site 0 * Site 0) + Num (2#1) / (Site 0 * Site 0 * Site 0);
    Num (-6#1) * Var 21 / (Site 0 * Site 0 * Site 0 * Site 0);
    Num (-6#1) * Var 21 / (Site 0 * Site 0 * Site 0 * Site 0)];
    [Num (-6#1) * Var 21 / (Site 0 * Site 0 * Site 0 * Site 0) + Num (2#1) / (Site 0 * Site 0 * Site 0);
    Num (-6#1) * Var 21 / (Site 0 * Site 0 * Site 0 * Site 0) + Num (2#1) / (Site 0 * Site 0 * Site 0) + Num (2#1) / (Site 0 * Site 0 * Site 0);
    Num (-6#1) * Var 21 / (Site 0 * Site 0 * Site 0 * Site 0) + Num (2#1) / (Site 0 * Site 0 * Site 0);
    Num (-6#1) * Var 21 / (Site 0 * Site 0 * Site 0 * Site 0) + Num (2#1) / (Site 0 * Site 0 * Site 0)];
    [Num (-6#1) * Var 21 / (Site 0 * Site 0 * Site 0 * Site 0);
    Num (-6#1) * Var 21 / (Site 0 * Site 0 * Site 0 * Site 0) + Num (2#1) / (Site 0 * Site 0 * Site 0);
    Num (-6#1) * Var 21 / (Site 0 * Site 0 * Site 0 * Site 0);
    Num (-6#1) * Var 21 / (Site 0 * Site 0 * Site 0 * Site 0)];
    [Num (-6#1) * Var 21 / (Site 0 * Site 0 * Site 0 * Site 0);
    Num (-6#1) * Var 21 / (Site 0 * Site 0 * Site 0 * Site 0) + Num (2#1) / (Site 0 * Site 0 * Site 0);
    Num (-6#1) * Var 21 / (Site 0 * Site 0 * Site 0 * Site 0);
    Num (-6#1) * Var 21 / (Site 0 * Site 0 * Site 0 * Site 0)]];
    [[Num (-6#1) * Var 21 / (Site 0 * Site 0 * Site 0 * Site 0) + Num (2#1) / (Site 0 * Site 0 * Site 0);
    Num (-6#1) * Var 21 / (Site 0 * Site 0 * Site 0 * Site 0) + Num (2#1) / (Site 0 * Site 0 * Site 0) + Num (2#1) / (Site 0 * Site 0 * Site 0);
    Num (-6#1) * Var 21 / (Site 0 * Site 0 * Site 0 * Site 0) + Num (2#1) / (Site 0 * Site 0 * Site 0);
    Num (-6#1) * Var 21 / (Site 0 * Site 0 * Site 0 * Site 0) + Num (2#1) / (Site 0 * Site 0 * Site 0)];
    [Num (-6#1) * Var 21 / (Site 0 * Site 0 * Site 0 * Site 0) + Num (2#1) / (Site 0 * Site 0 * Site 0) + Num (2#1) / (Site 0 * Site 0 * Site 0);
    Num (-6#1) * Var 21 / (Site 0 * Site 0 * Site 0 * Site 0) + Num (2#1) / (Site 0 * Site 0 * Site 0) + Num (2#1) / (Site 0 * Site 0 * Site 0) + Num (2#1) / (Site 0 * Site 0 * Site 0);
    Num (-6#1) * Var 21 / (Site 0 * Site 0 * Site 0 * Site 0) + Num (2#1) / (Site 0 * Site 0 * Site 0) + Num (2#1) / (Site 0 * Site 0 * Site 0);
    Num (-6#1) * Var 21 / (Site 0 * Site 0 * Site 0 * Site 0) + Num (2#1) / (Site 0 * Site 0 * Site 0) + Num (2#1) / (Site 0 * Site 0 * Site 0)];
    [Num (-6#1) * Var 21 / (Site 0 * Site 0 * Site 0 * Site 0) + Num (2#1) / (Site 0 * Site 0 * Site 0);
    Num (-6#1) * Var 21 / (Site 0 * Site 0 * Site 0 * Site 0) + Num (2#1) / (Site 0 * Site 0 * Site 0) + Num (2#1) / (Site 0 * Site 0 * Site 0);
    Num (-6#1) * Var 21 / (Site 0 * Site 0 * Site 0 * Site 0) + Num (2#1) / (Site 0 * Site 0 * Site 0);
    Num (-6#1) * Var 21 / (Site 0 * Site 0 * Site 0 * Site 0) + Num (2#1) / (Site 0 * Site 0 * Site 0)];
    [Num (-6#1) * Var 21 / (Site 0 * Site 0 * Site 0 * Site 0) + Num (2#1) / (Site 0 * Site 0 * Site 0);
    Num (-6#1) * Var 21 / (Site 0 * Site 0 * Site 0 * Site 0) + Num (2#1) / (Site 0 * Site 0 * Site 0) + Num (2#1) / (Site 0 * Site 0 * Site 0);
    Num (-6#1) * Var 21 / (Site 0 * Site 0 * Site 0 * Site 0) + Num (2#1) / (Site 0 * Site 0 * Site 0);
    Num (-6#1) * Var 21 / (Site 0 * Site 0 * Site 0 * Site 0) + Num (2#1) / (Site 0 * Site 0 * Site 0)]];
    [[Num (-6#1) * Var 21 / (Site 0 * Site 0 * Site 0 * Site 0);
    Num (-6#1) * Var 21 / (Site 0 * Site 0 * Site 0 * Site 0) + Num (2#1) / (Site 0 * Site 0 * Site 0);
    Num (-6#1) * Var 21 / (Site 0 * Site 0 * Site 0 * Site 0);
    Num (-6#1) * Var 21 / (Site 0 * Site 0 * Site 0 * Site 0)];
    [Num (-6#1) * Var 21 / (Site 0 * Site 0 * Site 0 * Site 0) + Num (2#1) / (Site 0 * Site 0 * Site 0);
    Num (-6#1) * Var 21 / (Site 0 * Site 0 * Site 0 * Site 0) + Num (2#1) / (Site 0 * Site 0 * Site 0) + Num (2#1) / (Site 0 * Site 0 * Site 0);
    Num (-6#1) * Var 21 / (Site 0 * Site 0 * Site 0 * Site 0) + Num (2#1) / (Site 0 * Site 0 * Site 0);
    Num (-6#1) * Var 21 / (Site 0 * Site 0 * Site 0 * Site 0) + Num (2#1) / (Site 0 * Site 0 * Site 0)];
    [Num (-6#1) * Var 21 / (Site 0 * Site 0 * Site 0 * Site 0);
    Num (-6#1) * Var 21 / (Site 0 * Site 0 * Site 0 * Site 0) + Num (2#1) / (Site 0 * Site 0 * Site 0);
    Num (-6#1) * Var 21 / (Site 0 * Site 0 * Site 0 * Site 0);
    Num (-6#1) * Var 21 / (Site 0 * Site 0 * Site 0 * Site 0)];
    [Num (-6#1) * Var 21 / (Site 0 * Site 0 * Site 0 * Site 0);
    Num (-6#1) * Var 21 / (Site 0 * Site 0 * Site 0 * Site 0) + Num (2#1) / (Site 0 * Site 0 * Site 0);
    Num (-6#1) * Var 21 / (Site 0 * Site 0 * Site 0 * Site 0);
    Num (-6#1) * Var 21 / (Site 0 * Site 0 * Site 0 * Site 0)]];
    [[Num (-6#1) * Var 21 / (Site 0 * Site 0 * Site 0 * Site 0);
    Num (-6#1) * Var 21 / (Site 0 * Site 0 * Site 0 * Site 0) + Num (2#1) / (Site 0 * Site 0 * Site 0);
    Num (-6#1) * Var 21 / (Site 0 * Site 0 * Site 0 * Site 0);
    Num (-6#1) * Var 21 / (Site 0 * Site 0 * Site 0 * Site 0)];
    [Num (-6#1) * Var 21 / (Site 0 * Site 0 * Site 0 * Site 0) + Num (2#1) / (Site 0 * Site 0 * Site 0);
    Num (-6#1) * Var 21 / (Site 0 * Site 0 * Site 0 * Site 0) + Num (2#1) / (Site 0 * Site 0 * Site 0) + Num (2#1) / (Site 0 * Site 0 * Site 0);
    Num (-6#1) * Var 21 / (Site 0 * Site 0 * Site 0 * Site 0) + Num (2#1) / (Site 0 * Site 0 * Site 0);
    Num (-6#1) * Var 21 / (Site 0 * Site 0 * Site 0 * Site 0) + Num (2#1) / (Site 0 * Site 0 * Site 0)];
    [Num (-6#1) * Var 21 / (Site 0 * Site 0 * Site 0 * Site 0);
    Num (-6#1) * Var 21 / (Site 0 * Site 0 * Site 0 * Site 0) + Num (2#1) / (Site 0 * Site 0 * Site 0);
    Num (-6#1) * Var 21 / (Site 0 * Site 0 * Site 0 * Site 0);
    Num (-6#1) * Var 21 / (Site 0 * Site 0 * Site 0 * Site 0)];
    [Num (-6#1) * Var 21 / (Site 0 * Site 0 * Site 0 * Site 0);
    Num (-6#1) * Var 21 / (Site 0 * Site 0 * Site 0 * Site 0) + Num (2#1) / (Site 0 * Site 0 * Site 0);
    Num (-6#1) * Var 21 / (Site 0 * Site 0 * Site 0 * Site 0);
    Num (-6#1) * Var 21 / (Site 0 * Site 0 * Site 0 * Site 0)]]];
    [[[Num (-6#1) * Var 22 / (Site 0 * Site 0 * Site 0 * Site 0);
    Num (-6#1) * Var 22 / (Site 0 * Site 0 * Site 0 * Site 0);
    Num (-6#1) * Var 22 / (Site 0 * Site 0 * Site 0 * Site 0) + Num (2#1) / (Site 0 * Site 0 * Site 0);
    Num (-6#1) * Var 22 / (Site 0 * Site 0 * Site 0 * Site 0)];
    [Num (-6#1) * Var 22 / (Site 0 * Site 0 * Site 0 * Site 0);
    Num (-6#1) * Var 22 / (Site 0 * Site 0 * Site 0 * Site 0);
    Num (-6#1) * Var 22 / (Site 0 * Site 0 * Site 0 * Site 0) + Num (2#1) / (Site 0 * Site 0 * Site 0);
    Num (-6#1) * Var 22 / (Site 0 * Site 0 * Site 0 * Site 0)];
    [Num (-6#1) * Var 22 / (Site 0 * Site 0 * Site 0 * Site 0) + Num (2#1) / (Site 0 * Site 0 * Site 0);
    Num (-6#1) * Var 22 / (Site 0 * Site 0 * Site 0 * Site 0) + Num (2#1) / (Site 0 * Site 0 * Site 0);
    Num (-6#1) * Var 22 / (Site 0 * Site 0 * Site 0 * Site 0) + Num (2#1) / (Site 0 * Site 0 * Site 0) + Num (2#1) / (Site 0 * Site 0 * Site 0);
    Num (-6#1) * Var 22 / (Site 0 * Site 0 * Site 0 * Site 0) + Num (2#1) / (Site 0 * Site 0 * Site 0)];
    [Num (-6#1) * Var 22 / (Site 0 * Site 0 * Site 0 * Site 0);
    Num (-6#1) * Var 22 / (Site 0 * Site 0 * Site 0 * Site 0);
    Num (-6#1) * Var 22 / (Site 0 * Site 0 * Site 0 * Site 0) + Num (2#1) / (Site 0 * Site 0 * Site 0);
    Num (-6#1) * Var 22 / (Site 0 * Site 0 * Site 0 * Site 0)]];
    [[Num (-6#1) * Var 22 / (Site 0 * Site 0 * Site 0 * Site 0);
    Num (-6#1) * Var 22 / (Site 0 * Site 0 * Site 0 * Site 0);
    Num (-6#1) * Var 22 / (Site 0 * Site 0 * Site 0 * Site 0) + Num (2#1) / (Site 0 * Site 0 * Site 0);
    Num (-6#1) * Var 22 / (Site 0 * Site 0 * Site 0 * Site 0)];
    [Num (-6#1) * Var 22 / (Site 0 * Site 0 * Site 0 * Site 0);
    Num (-6#1) * Var 22 / (Site 0 * Site 0 * Site 0 * Site 0);
    Num (-6#1) * Var 22 / (Site 0 * Site 0 * Site 0 * Site 0) + Num (2#1) / (Site 0 * Site 0 * Site 0);
    Num (-6#1) * Var 22 / (Site 0 * Site 0 * Site 0 * Site 0)];
    [Num (-6#1) * Var 22 / (Site 0 * Site 0 * Site 0 * Site 0) + Num (2#1) / (Site 0 * Site 0 * Site 0);
    Num (-6#1) * Var 22 / (Site 0 * Site 0 * Site 0 * Site 0) + Num (2#1) / (Site 0 * Site 0 * Site 0);
    Num (-6#1) * Var 22 / (Site 0 * Site 0 * Site 0 * Site 0) + Num (2#1) / (Site 0 * Site 0 * Site 0) + Num (2#1) / (Site 0 * Site 0 * Site 0);
    Num (-6#1) * Var 22 / (Site 0 * Site 0 * Site 0 * Site 0) + Num (2#1) / (Site 0 * Site 0 * Site 0)];
    [Num (-6#1) * Var 22 / (Site 0 * Site 0 * Site 0 * Site 0);
    Num (-6#1) * Var 22 / (Site 0 * Site 0 * Site 0 * Site 0);
    Num (-6#1) * Var 22 / (Site 0 * Site 0 * Site 0 * Site 0) + Num (2#1) / (Site 0 * Site 0 * Site 0);
    Num (-6#1) * Var 22 / (Site 0 * Site 0 * Site 0 * Site 0)]];
    [[Num (-6#1) * Var 22 / (Site 0 * Site 0 * Site 0 * Site 0) + Num (2#1) / (Site 0 * Site 0 * Site 0);
    Num (-6#1) * Var 22 / (Site 0 * Site 0 * Site 0 * Site 0) + Num (2#1) / (Site 0 * Site 0 * Site 0);
    Num (-6#1) * Var 22 / (Site 0 * Site 0 * Site 0 * Site 0) + Num (2#1) / (Site 0 * Site 0 * Site 0) + Num (2#1) / (Site 0 * Site 0 * Site 0);
    Num (-6#1) * Var 22 / (Site 0 * Site 0 * Site 0 * Site 0) + Num (2#1) / (Site 0 * Site 0 * Site 0)];
    [Num (-6#1) * Var 22 / (Site 0 * Site 0 * Site 0 * Site 0) + Num (2#1) / (Site 0 * Site 0 * Site 0);
    Num (-6#1) * Var 22 / (Site 0 * Site 0 * Site 0 * Site 0) + Num (2#1) / (Site 0 * Site 0 * Site 0);
    Num (-6#1) * Var 22 / (Site 0 * Site 0 * Site 0 * Site 0) + Num (2#1) / (Site 0 * Site 0 * Site 0) + Num (2#1) / (Site 0 * Site 0 * Site 0);
    Num (-6#1) * Var 22 / (Site 0 * Site 0 * Site 0 * Site 0) + Num (2#1) / (Site 0 * Site 0 * Site 0)];
    [Num (-6#1) * Var 22 / (Site 0 * Site 0 * Site 0 * Site 0) + Num (2#1) / (Site 0 * Site 0 * Site 0) + Num (2#1) / (Site 0 * Site 0 * Site 0);
    Num (-6#1) * Var 22 / (Site 0 * Site 0 * Site 0 * Site 0) + Num (2#1) / (Site 0 * Site 0 * Site 0) + Num (2#1) / (Site 0 * Site 0 * Site 0);
    Num (-6#1) * Var 22 / (Site 0 * Site 0 * Site 0 * Site 0) + Num (2#1) / (Site 0 * Site 0 * Site 0) + Num (2#1) / (Site 0 * Site 0 * Site 0) + Num (2#1) / (Site 0 * Site 0 * Site 0);
    Num (-6#1) * Var 22 / (Site 0 * Site 0 * Site 0 * Site 0) + Num (2#1) / (Site 0 * Site 0 * Site 0) + Num (2#1) / (Site 0 * Site 0 * Site 0)];
    [Num (-6#1) * Var 22 / (Site 0 * Site 0 * Site 0 * Site 0) + Num (2#1) / (Site 0 * Site 0 * Site 0);
    Num (-6#1) * Var 22 / (Site 0 * Site 0 * Site 0 * Site 0) + Num (2#1) / (Site 0 * Site 0 * Site 0);
    Num (-6#1) * Var 22 / (Site 0 * Site 0 * Site 0 * Site 0) + Num (2#1) / (Site 0 * Site 0 * Site 0) + Num (2#1) / (Site 0 * Site 0 * Site 0);
    Num (-6#1) * Var 22 / (Site 0 * Site 0 * Site 0 * Site 0) + Num (2#1) / (Site 0 * Site 0 * Site 0)]];
    [[Num (-6#1) * Var 22 / (Site 0 * Site 0 * Site 0 * Site 0);
    Num (-6#1) * Var 22 / (Site 0 * Site 0 * Site 0 * Site 0);
    Num (-6#1) * Var 22 / (Site 0 * Site 0 * Site 0 * Site 0) + Num (2#1) / (Site 0 * Site 0 * Site 0);
    Num (-6#1) * Var 22 / (Site 0 * Site 0 * Site 0 * Site 0)];
    [Num (-6#1) * Var 22 / (Site 0 * Site 0 * Site 0 * Site 0);
    Num (-6#1) * Var 22 / (Site 0 * Site 0 * Site 0 * Site 0);
    Num (-6#1) * Var 22 / (Site 0 * Site 0 * Site 0 * Site 0) + Num (2#1) / (Site 0 * Site 0 * Site 0);
    Num (-6#1) * Var 22 / (Site 0 * Site 0 * Site 0 * Site 0)];
    [Num (-6#1) * Var 22 / (Site 0 * Site 0 * Site 0 * Site 0) + Num (2#1) / (Site 0 * Site 0 * Site 0);
    Num (-6#1) * Var 22 / (Site 0 * Site 0 * Site 0 * Site 0) + Num (2#1) / (Site 0 * Site 0 * Site 0);
    Num (-6#1) * Var 22 / (Site 0 * Site 0 * Site 0 * Site 0) + Num (2#1) / (Site 0 * Site 0 * Site 0) + Num (2#1) / (Site 0 * Site 0 * Site 0);
    Num (-6#1) * Var 22 / (Site 0 * Site 0 * Site 0 * Site 0) + Num (2#1) / (Site 0 * Site 0 * Site 0)];
    [Num (-6#1) * Var 22 / (Site 0 * Site 0 * Site 0 * Site 0);
    Num (-6#1) * Var 22 / (Site 0 * Site 0 * Site 0 * Site 0);
    Num (-6#1) * Var 22 / (Site 0 * Site 0 * Site 0 * Site 0) + Num (2#1) / (Site 0 * Site 0 * Site 0);
    Num (-6#1) * Var 22 / (Site 0 * Site 0 * Site 0 * Site 0)]]];
    [[[Num (-6#1) * Var 23 / (Site 0 * Site 0 * Site 0 * Site 0);
    Num (-6#1) * Var 23 / (Site 0 * Site 0 * Site 0 * Site 0);
    Num (-6#1) * Var 23 / (Site 0 * Site 0 * Site 0 * Site 0);
    Num (-6#1) * Var 23 / (Site 0 * Site 0 * Site 0 * Site 0) + Num (2#1) / (Site 0 * Site 0 * Site 0)];
    [Num (-6#1) * Var 23 / (Site 0 * Site 0 * Site 0 * Site 0);
    Num (-6#1) * Var 23 / (Site 0 * Site 0 * Site 0 * Site 0);
    Num (-6#1) * Var 23 / (Site 0 * Site 0 * Site 0 * Site 0);
    Num (-6#1) * Var 23 / (Site 0 * Site 0 * Site 0 * Site 0) + Num (2#1) / (Site 0 * Site 0 * Site 0)];
    [Num (-6#1) * Var 23 / (Site 0 * Site 0 * Site 0 * Site 0);
    Num (-6#1) * Var 23 / (Site 0 * Site 0 * Site 0 * Site 0);
    Num (-6#1) * Var 23 / (Site 0 * Site 0 * Site 0 * Site 0);
    Num (-6#1) * Var 23 / (Site 0 * Site 0 * Site 0 * Site 0) + Num (2#1) / (Site 0 * Site 0 * Site 0)];
    [Num (-6#1) * Var 23 / (Site 0 * Site 0 * Site 0 * Site 0) + Num (2#1) / (Site 0 * Site 0 * Site 0);
    Num (-6#1) * Var 23 / (Site 0 * Site 0 * Site 0 * Site 0) + Num (2#1) / (Site 0 * Site 0 * Site 0);
    Num (-6#1) * Var 23 / (Site 0 * Site 0 * Site 0 * Site 0) + Num (2#1) / (Site 0 * Site 0 * Site 0);
    Num (-6#1) * Var 23 / (Site 0 * Site 0 * Site 0 * Site 0) + Num (2#1) / (Site 0 * Site 0 * Site 0) + Num (2#1) / (Site 0 * Site 0 * Site 0)]];
    [[Num (-6#1) * Var 23 / (Site 0 * Site 0 * Site 0 * Site 0);
    Num (-6#1) * Var 23 / (Site 0 * Site 0 * Site 0 * Site 0);
    Num (-6#1) * Var 23 / (Site 0 * Site 0 * Site 0 * Site 0);
    Num (-6#1) * Var 23 / (Site 0 * Site 0 * Site 0 * Site 0) + Num (2#1) / (Site 0 * Site 0 * Site 0)];
    [Num (-6#1) * Var 23 / (Site 0 * Site 0 * Site 0 * Site 0);
    Num (-6#1) * Var 23 / (Site 0 * Site 0 * Site 0 * Site 0);
    Num (-6#1) * Var 23 / (Site 0 * Site 0 * Site 0 * Site 0);
    Num (-6#1) * Var 23 / (Site 0 * Site 0 * Site 0 * Site 0) + Num (2#1) / (Site 0 * Site 0 * Site 0)];
    [Num (-6#1) * Var 23 / (Site 0 * Site 0 * Site 0 * Site 0);
    Num (-6#1) * Var 23 / (Site 0 * Site 0 * Site 0 * Site 0);
    Num (-6#1) * Var 23 / (Site 0 * Site 0 * Site 0 * Site 0);
    Num (-6#1) * Var 23 / (Site 0 * Site 0 * Site 0 * Site 0) + Num (2#1) / (Site 0 * Site 0 * Site 0)];
    [Num (-6#1) * Var 23 / (Site 0 * Site 0 * Site 0 * Site 0) + Num (2#1) / (Site 0 * Site 0 * Site 0);
    Num (-6#1) * Var 23 / (Site 0 * Site 0 * Site 0 * Site 0) + Num (2#1) / (Site 0 * Site 0 * Site 0);
    Num (-6#1) * Var 23 / (Site 0 * Site 0 * Site 0 * Site 0) + Num (2#1) / (Site 0 * Site 0 * Site 0);
    Num (-6#1) * Var 23 / (Site 0 * Site 0 * Site 0 * Site 0) + Num (2#1) / (Site 0 * Site 0 * Site 0) + Num (2#1) / (Site 0 * Site 0 * Site 0)]];
    [[Num (-6#1) * Var 23 / (Site 0 * Site 0 * Site 0 * Site 0);
    Num (-6#1) * Var 23 / (Site 0 * Site 0 * Site 0 * Site 0);
    Num (-6#1) * Var 23 / (Site 0 * Site 0 * Site 0 * Site 0);
    Num (-6#1) * Var 23 / (Site 0 * Site 0 * Site 0 * Site 0) + Num (2#1) / (Site 0 * Site 0 * Site 0)];
    [Num (-6#1) * Var 23 / (Site 0 * Site 0 * Site 0 * Site 0);
    Num (-6#1) * Var 23 / (Site 0 * Site 0 * Site 0 * Site 0);
    Num (-6#1) * Var 23 / (Site 0 * Site 0 * Site 0 * Site 0);
    Num (-6#1) * Var 23 / (Site 0 * Site 0 * Site 0 * Site 0) + Num (2#1) / (Site 0 * Site 0 * Site 0)];
    [Num (-6#1) * Var 23 / (Site 0 * Site 0 * Site 0 * Site 0);
    Num (-6#1) * Var 23 / (Site 0 * Site 0 * Site 0 * Site 0);
    Num (-6#1) * Var 23 / (Site 0 * Site 0 * Site 0 * Site 0);
    Num (-6#1) * Var 23 / (Site 0 * Site 0 * Site 0 * Site 0) + Num (2#1) / (Site 0 * Site 0 * Site 0)];
    [Num (-6#1) * Var 23 / (Site 0 * Site 0 * Site 0 * Site 0) + Num (2#1) / (Site 0 * Site 0 * Site 0);
    Num (-6#1) * Var 23 / (Site 0 * Site 0 * Site 0 * Site 0) + Num (2#1) / (Site 0 * Site 0 * Site 0);
    Num (-6#1) * Var 23 / (Site 0 * Site 0 * Site 0 * Site 0) + Num (2#1) / (Site 0 * Site 0 * Site 0);
    Num (-6#1) * Var 23 / (Site 0 * Site 0 * Site 0 * Site 0) + Num (2#1) / (Site 0 * Site 0 * Site 0) + Num (2#1) / (Site 0 * Site 0 * Site 0)]];
    [[Num (-6#1) * Var 23 / (Site 0 * Site 0 * Site 0 * Site 0) + Num (2#1) / (Site 0 * Site 0 * Site 0);
    Num (-6#1) * Var 23 / (Site 0 * Site 0 * Site 0 * Site 0) + Num (2#1) / (Site 0 * Site 0 * Site 0);
    Num (-6#1) * Var 23 / (Site 0 * Site 0 * Site 0 * Site 0) + Num (2#1) / (Site 0 * Site 0 * Site 0);
    Num (-6#1) * Var 23 / (Site 0 * Site 0 * Site 0 * Site 0) + Num (2#1) / (Site 0 * Site 0 * Site 0) + Num (2#1) / (Site 0 * Site 0 * Site 0)];
    [Num (-6#1) * Var 23 / (Site 0 * Site 0 * Site 0 * Site 0) + Num (2#1) / (Site 0 * Site 0 * Site 0);
    Num (-6#1) * Var 23 / (Site 0 * Site 0 * Site 0 * Site 0) + Num (2#1) / (Site 0 * Site 0 * Site 0);
    Num (-6#1) * Var 23 / (Site 0 * Site 0 * Site 0 * Site 0) + Num (2#1) / (Site 0 * Site 0 * Site 0);
    Num (-6#1) * Var 23 / (Site 0 * Site 0 * Site 0 * Site 0) + Num (2#1) / (Site 0 * Site 0 * Site 0) + Num (2#1) / (Site 0 * Site 0 * Site 0)];
    [Num (-6#1) * Var 23 / (Site 0 * Site 0 * Site 0 * Site 0) + Num (2#1) / (Site 0 * Site 0 * Site 0);
    Num (-6#1) * Var 23 / (Site 0 * Site 0 * Site 0 * Site 0) + Num (2#1) / (Site 0 * Site 0 * Site 0);
    Num (-6#1) * Var 23 / (Site 0 * Site 0 * Site 0 * Site 0) + Num (2#1) / (Site 0 * Site 0 * Site 0);
    Num (-6#1) * Var 23 / (Site 0 * Site 0 * Site 0 * Site 0) + Num (2#1) / (Site 0 * Site 0 * Site 0) + Num (2#1) / (Site 0 * Site 0 * Site 0)];
    [Num (-6#1) * Var 23 / (Site 0 * Site 0 * Site 0 * Site 0) + Num (2#1) / (Site 0 * Site 0 * Site 0) + Num (2#1) / (Site 0 * Site 0 * Site 0);
    Num (-6#1) * Var 23 / (Site 0 * Site 0 * Site 0 * Site 0) + Num (2#1) / (Site 0 * Site 0 * Site 0) + Num (2#1) / (Site 0 * Site 0 * Site 0);
    Num (-6#1) * Var 23 / (Site 0 * Site 0 * Site 0 * Site 0) + Num (2#1) / (Site 0 * Site 0 * Site 0) + Num (2#1) / (Site 0 * Site 0 * Site 0);
    Num (-6#1) * Var 23 / (Site 0 * Site 0 * Site 0 * Site 0) + Num (2#1) / (Site 0 * Site 0 * Site 0) + Num (2#1) / (Site 0 * Site 0 * Site 0) + Num (2#1) / (Site 0 * Site 0 * Site 0)]]]].
(** sources/nepheline.c 1395-1580: conNph, inpMask THIRD, output x[i] from r *)
Definition Nph_con_xr :=
  [Num (1#1) - Var 2 - Var 3 - Var 4;
    Var 2;
    Var 3;
    Var 4].
(** sources/nepheline.c 1395-1580: conNph, inpMask THIRD, output dr[i][j] *)
Definition Nph_con_dr :=
  [[Num (-1#1);
    Num (-1#1);
    Num (-1#1)];
    [Num (1#1);
    Num (0#1);
    Num (0#1)];
    [Num (0#1);
    Num (1#1);
    Num (0#1)];
    [Num (0#1);
    Num (0#1);
    Num (1#1)]].
(** sources/nepheline.c 1395-1580: x[i] from r is set to zero when it is smaller in absolute value than this number *)
Definition Nph_con_snap : list (nat * Q) := [].
Definition conNph : conv :=
  mkConv "nepheline" 4 3 Nph_con_r Nph_con_x Nph_con_dm Nph_con_d2m Nph_con_d3m Nph_con_xr Nph_con_dr Nph_con_snap.

(** sources/olivine.c 2519-2719: conOlv, inpMask SECOND, output r[i] from m *)
Definition Olv_con_r :=
  [Num (2#1) * Var 20 / Site 0 - Num (1#1);
    Num (2#1) * Var 21 / Site 0 - Num (1#1);
    Num (2#1) * Var 22 / Site 0 - Num (1#1);
    Num (2#1) * Var 23 / Site 0 - Num (1#1);
    Var 24 / Site 0].
(** sources/olivine.c 2519-2719: conOlv, inpMask SECOND, output x[i] from m *)
Definition Olv_con_x :=
  [Var 20 / Site 0;
    Var 21 / Site 0;
    Var 22 / Site 0;
    Var 23 / Site 0;
    Var 24 / Site 0;
    Var 25 / Site 0].
(** sources/olivine.c 2519-2719: conOlv, inpMask SECOND, output dm[i][j] *)
Definition Olv_con_dm :=
  [[Num (2#1) * (Num (1#1) - Var 20 / Site 0) / Site 0;
    Num (-2#1) * Var 20 / (Site 0 * Site 0);
    Num (-2#1) * Var 20 / (Site 0 * Site 0);
    Num (-2#1) * Var 20 / (Site 0 * Site 0);
    Num (-2#1) * Var 20 / (Site 0 * Site 0);
    Num (-2#1) * Var 20 / (Site 0 * Site 0)];
    [Num (-2#1) * Var 21 / (Site 0 * Site 0);
    Num (2#1) * (Num (1#1) - Var 21 / Site 0) / Site 0;
    Num (-2#1) * Var 21 / (Site 0 * Site 0);
    Num (-2#1) * Var 21 / (Site 0 * Site 0);
    Num (-2#1) * Var 21 / (Site 0 * Site 0);
    Num (-2#1) * Var 21 / (Site 0 * Site 0)];
    [Num (-2#1) * Var 22 / (Site 0 * Site 0);
    Num (-2#1) * Var 22 / (Site 0 * Site 0);
    Num (2#1) * (Num (1#1) - Var 22 / Site 0) / Site 0;
    Num (-2#1) * Var 22 / (Site 0 * Site 0);
    Num (-2#1) * Var 22 / (Site 0 * Site 0);
    Num (-2#1) * Var 22 / (Site 0 * Site 0)];
    [Num (-2#1) * Var 23 / (Site 0 * Site 0);
    Num (-2#1) * Var 23 / (Site 0 * Site 0);
    Num (-2#1) * Var 23 / (Site 0 * Site 0);
    Num (2#1) * (Num (1#1) - Var 23 / Site 0) / Site 0;
    Num (-2#1) * Var 23 / (Site 0 * Site 0);
    Num (-2#1) * Var 23 / (Site 0 * Site 0)];
    [Num (-1#1) * Var 24 / (Site 0 * Site 0);
    Num (-1#1) * Var 24 / (Site 0 * Site 0);
    Num (-1#1) * Var 24 / (Site 0 * Site 0);
    Num (-1#1) * Var 24 / (Site 0 * Site 0);
    (Num (1#1) - Var 24 / Site 0) / Site 0;
    Num (-1#1) * Var 24 / (Site 0 * Site 0)]].
(** sources/olivine.c 2519-2719: conOlv, inpMask SECOND, output d2m[i][j][k] *)
Definition Olv_con_d2m :=
  [[[Num (4#1) * Var 20 / (Site 0 * Site 0 * Site 0) - Num (2#1) / (Site 0 * Site 0) - Num (2#1) / (Site 0 * Site 0);
    Num (4#1) * Var 20 / (Site 0 * Site 0 * Site 0) - Num (2#1) / (Site 0 * Site 0);
    Num (4#1) * Var 20 / (Site 0 * Site 0 * Site 0) - Num (2#1) / (Site 0 * Site 0);
    Num (4#1) * Var 20 / (Site 0 * Site 0 * Site 0) - Num (2#1) / (Site 0 * Site 0);
    Num (4#1) * Var 20 / (Site 0 * Site 0 * Site 0) - Num (2#1) / (Site 0 * Site 0);
    Num (4#1) * Var 20 / (Site 0 * Site 0 * Site 0) - Num (2#1) / (Site 0 * Site 0)];
    [Num (4#1) * Var 20 / (Site 0 * Site 0 * Site 0) - Num (2#1) / (Site 0 * Site 0);
    Num (4#1) * Var 20 / (Site 0 * Site 0 * Site 0);
    Num (4#1) * Var 20 / (Site 0 * Site 0 * Site 0);
    Num (4#1) * Var 20 / (Site 0 * Site 0 * Site 0);
    Num (4#1) * Var 20 / (Site 0 * Site 0 * Site 0);
    Num (4#1) * Var 20 / (Site 0 * Site 0 * Site 0)];
    [Num (4#1) * Var 20 / (Site 0 * Site 0 * Site 0) - Num (2#1) / (Site 0 * Site 0);
    Num (4#1) * Var 20 / (Site 0 * Site 0 * Site 0);
    Num (4#1) * Var 20 / (Site 0 * Site 0 * Site 0);
    Num (4#1) * Var 20 / (Site 0 * Site 0 * Site 0);
    Num (4#1) * Var 20 / (Site 0 * Site 0 * Site 0);
    Num (4#1) * Var 20 / (Site 0 * Site 0 * Site 0)];
    [Num (4#1) * Var 20 / (Site 0 * Site 0 * Site 0) - Num (2#1) / (Site 0 * Site 0);
    Num (4#1) * Var 20 / (Site 0 * Site 0 * Site 0);
    Num (4#1) * Var 20 / (Site 0 * Site 0 * Site 0);
    Num (4#1) * Var 20 / (Site 0 * Site 0 * Site 0);
    Num (4#1) * Var 20 / (Site 0 * Site 0 * Site 0);
    Num (4#1) * Var 20 / (Site 0 * Site 0 * Site 0)];
    [Num (4#1) * Var 20 / (Site 0 * Site 0 * Site 0) - Num (2#1) / (Site 0 * Site 0);
    Num (4#1) * Var 20 / (Site 0 * Site 0 * Site 0);
    Num (4#1) * Var 20 / (Site 0 * Site 0 * Site 0);
    Num (4#1) * Var 20 / (Site 0 * Site 0 * Site 0);
    Num (4#1) * Var 20 / (Site 0 * Site 0 * Site 0);
    Num (4#1) * Var 20 / (Site 0 * Site 0 * Site 0)];
    [Num (4#1) * Var 20 / (Site 0 * Site 0 * Site 0) - Num (2#1) / (Site 0 * Site 0);
    Num (4#1) * Var 20 / (Site 0 * Site 0 * Site 0);
    Num (4#1) * Var 20 / (Site 0 * Site 0 * Site 0);
    Num (4#1) * Var 20 / (Site 0 * Site 0 * Site 0);
    Num (4#1) * Var 20 / (Site 0 * Site 0 * Site 0);
    Num (4#1) * Var 20 / (Site 0 * Site 0 * Site 0)]];
    [[Num (4#1) * Var 21 / (Site 0 * Site 0 * Site 0);
    Num (4#1) * Var 21 / (Site 0 * Site 0 * Site 0) - Num (2#1) / (Site 0 * Site 0);
    Num (4#1) * Var 21 / (Site 0 * Site 0 * Site 0);
    Num (4#1) * Var 21 / (Site 0 * Site 0 * Site 0);
    Num (4#1) * Var 21 / (Site 0 * Site 0 * Site 0);
    Num (4#1) * Var 21 / (Site 0 * Site 0 * Site 0)];
    [Num (4#1) * Var 21 / (Site 0 * Site 0 * Site 0) - Num (2#1) / (Site 0 * Site 0);
    Num (4#1) * Var 21 / (Site 0 * Site 0 * Site 0) - Num (2#1) / (Site 0 * Site 0) - Num (2#1) / (Site 0 * Site 0);
    Num (4#1) * Var 21 / (Site 0 * Site 0 * Site 0) - Num (2#1) / (Site 0 * Site 0);
    Num (4#1) * Var 21 / (Site 0 * Site 0 * Site 0) - Num (2#1) / (Site 0 * Site 0);
    Num (4#1) * Var 21 / (Site 0 * Site 0 * Site 0) - Num (2#1) / (Site 0 * Site 0);
    Num (4#1) * Var 21 / (Site 0 * Site 0 * Site 0) - Num (2#1) / (Site 0 * Site 0)];
    [Num (4#1) * Var 21 / (Site 0 * Site 0 * Site 0);
    Num (4#1) * Var 21 / (Site 0 * Site 0 * Site 0) - Num (2#1) / (Site 0 * Site 0);
    Num (4#1) * Var 21 / (Site 0 * Site 0 * Site 0);
    Num (4#1) * Var 21 / (Site 0 * Site 0 * Site 0);
    Num (4#1) * Var 21 / (Site 0 * Site 0 * Site 0);
    Num (4#1) * Var 21 / (Site 0 * Site 0 * Site 0)];
    [Num (4#1) * Var 21 / (Site 0 * Site 0 * Site 0);
    Num (4#1) * Var 21 / (Site 0 * Site 0 * Site 0) - Num (2#1) / (Site 0 * Site 0);
    Num (4#1) * Var 21 / (Site 0 * Site 0 * Site 0);
    Num (4#1) * Var 21 / (Site 0 * Site 0 * Site 0);
    Num (4#1) * Var 21 / (Site 0 * Site 0 * Site 0);
    Num (4#1) * Var 21 / (Site 0 * Site 0 * Site 0)];
    [Num (4#1) * Var 21 / (Site 0 * Site 0 * Site 0);
    Num (4#1) * Var 21 / (Site 0 * Site 0 * Site 0) - Num (2#1) / (Site 0 * Site 0);
    Num (4#1) * Var 21 / (Site 0 * Site 0 * Site 0);
    Num (4#1) * Var 21 / (Site 0 * Site 0 * Site 0);
    Num (4#1) * Var 21 / (Site 0 * Site 0 * Site 0);
    Num (4#1) * Var 21 / (Site 0 * Site 0 * Site 0)];
    [Num (4#1) * Var 21 / (Site 0 * Site 0 * Site 0);
    Num (4#1) * Var 21 / (Site 0 * Site 0 * Site 0) - Num (2#1) / (Site 0 * Site 0);
    Num (4#1) * Var 21 / (Site 0 * Site 0 * Site 0);
    Num (4#1) * Var 21 / (Site 0 * Site 0 * Site 0);
    Num (4#1) * Var 21 / (Site 0 * Site 0 * Site 0);
    Num (4#1) * Var 21 / (Site 0 * Site 0 * Site 0)]];
    [[Num (4#1) * Var 22 / (Site 0 * Site 0 * Site 0);
    Num (4#1) * Var 22 / (Site 0 * Site 0 * Site 0);
    Num (4#1) * Var 22 / (Site 0 * Site 0 * Site 0) - Num (2#1) / (Site 0 * Site 0);
    Num (4#1) * Var 22 / (Site 0 * Site 0 * Site 0);
    Num (4#1) * Var 22 / (Site 0 * Site 0 * Site 0);
    Num (4#1) * Var 22 / (Site 0 * Site 0 * Site 0)];
    [Num (4#1) * Var 22 / (Site 0 * Site 0 * Site 0);
    Num (4#1) * Var 22 / (Site 0 * Site 0 * Site 0);
    Num (4#1) * Var 22 / (Site 0 * Site 0 * Site 0) - Num (2#1) / (Site 0 * Site 0);
    Num (4#1) * Var 22 / (Site 0 * Site 0 * Site 0);
    Num (4#1) * Var 22 / (Site 0 * Site 0 * Site 0);
    Num (4#1) * Var 22 / (Site 0 * Site 0 * Site 0)];
    [Num (4#1) * Var 22 / (Site 0 * Site 0 * Site 0) - Num (2#1) / (Site 0 * Site 0);
    Num (4#1) * Var 22 / (Site 0 * Site 0 * Site 0) - Num (2#1) / (Site 0 * Site 0);
    Num (4#1) * Var 22 / (Site 0 * Site 0 * Site 0) - Num (2#1) / (Site 0 * Site 0) - Num (2#1) / (Site 0 * Site 0);
    Num (4#1) * Var 22 / (Site 0 * Site 0 * Site 0) - Num (2#1) / (Site 0 * Site 0);
    Num (4#1) * Var 22 / (Site 0 * Site 0 * Site 0) - Num (2#1) / (Site 0 * Site 0);
    Num (4#1) * Var 22 / (Site 0 * Site 0 * Site 0) - Num (2#1) / (Site 0 * Site 0)];
    [Num (4#1) * Var 22 / (Site 0 * Site 0 * Site 0);
    Num (4#1) * Var 22 / (Site 0 * Site 0 * Site 0);
    Num (4#1) * Var 22 / (Site 0 * Site 0 * Site 0) - Num (2#1) / (Site 0 * Site 0);
    Num (4#1) * Var 22 / (Site 0 * Site 0 * Site 0);
    Num (4#1) * Var 22 / (Site 0 * Site 0 * Site 0);
    Num (4#1) * Var 22 / (Site 0 * Site 0 * Site 0)];
    [Num (4#1) * Var 22 / (Site 0 * Site 0 * Site 0);
    Num (4#1) * Var 22 / (Site 0 * Site 0 * Site 0);
    Num (4#1) * Var 22 / (Site 0 * Site 0 * Site 0) - Num (2#1) / (Site 0 * Site 0);
    Num (4#1) * Var 22 / (Site 0 * Site 0 * Site 0);
    Num (4#1) * Var 22 / (Site 0 * Site 0 * Site 0);
    Num (4#1) * Var 22 / (Site 0 * Site 0 * Site 0)];
    [Num (4#1) * Var 22 / (Site 0 * Site 0 * Site 0);
    Num (4#1) * Var 22 / (Site 0 * Site 0 * Site 0);
    Num (4#1) * Var 22 / (Site 0 * Site 0 * Site 0) - Num (2#1) / (Site 0 * Site 0);
    Num (4#1) * Var 22 / (Site 0 * Site 0 * Site 0);
    Num (4#1) * Var 22 / (Site 0 * Site 0 * Site 0);
    Num (4#1) * Var 22 / (Site 0 * Site 0 * Site 0)]];
    [[Num (4#1) * Var 23 / (Site 0 * Site 0 * Site 0);
    Num (4#1) * Var 23 / (Site 0 * Site 0 * Site 0);
    Num (4#1) * Var 23 / (Site 0 * Site 0 * Site 0);
    Num (4#1) * Var 23 / (Site 0 * Site 0 * Site 0) - Num (2#1) / (Site 0 * Site 0);
    Num (4#1) * Var 23 / (Site 0 * Site 0 * Site 0);
    Num (4#1) * Var 23 / (Site 0 * Site 0 * Site 0)];
    [Num (4#1) * Var 23 / (Site 0 * Site 0 * Site 0);
    Num (4#1) * Var 23 / (Site 0 * Site 0 * Site 0);
    Num (4#1) * Var 23 / (Site 0 * Site 0 * Site 0);
    Num (4#1) * Var 23 / (Site 0 * Site 0 * Site 0) - Num (2#1) / (Site 0 * Site 0);
    Num (4#1) * Var 23 / (Site 0 * Site 0 * Site 0);
    Num (4#1) * Var 23 / (Site 0 * Site 0 * Site 0)];
    [Num (4#1) * Var 23 / (Site 0 * Site 0 * Site 0);
    Num (4#1) * Var 23 / (Site 0 * Site 0 * Site 0);
    Num (4#1) * Var 23 / (Site 0 * Site 0 * Site 0);
    Num (4#1) * Var 23 / (Site 0 * Site 0 * Site 0) - Num (2#1) / (Site 0 * Site 0);
    Num (4#1) * Var 23 / (Site 0 * Site 0 * Site 0);
    Num (4#1) * Var 23 / (Site 0 * Site 0 * Site 0)];
    [Num (4#1) * Var 23 / (Site 0 * Site 0 * Site 0) - Num (2#1) / (Site 0 * Site 0);
    Num (4#1) * Var 23 / (Site 0 * Site 0 * Site 0) - Num (2#1) / (Site 0 * Site 0);
    Num (4#1) * Var 23 / (Site 0 * Site 0 * Site 0) - Num (2#1) / (Site 0 * Site 0);
    Num (4#1) * Var 23 / (Site 0 * Site 0 * Site 0) - Num (2#1) / (Site 0 * Site 0) - Num (2#1) / (Site 0 * Site 0);
    Num (4#1) * Var 23 / (Site 0 * Site 0 * Site 0) - Num (2#1) / (Site 0 * Site 0);
    Num (4#1) * Var 23 / (Site 0 * Site 0 * Site 0) - Num (2#1) / (Site 0 * Site 0)];
    [Num (4#1) * Var 23 / (Site 0 * Site 0 * Site 0);
    Num (4#1) * Var 23 / (Site 0 * Site 0 * Site 0);
    Num (4#1) * Var 23 / (Site 0 * Site 0 * Site 0);
    Num (4#1) * Var 23 / (Site 0 * Site 0 * Site 0) - Num (2#1) / (Site 0 * Site 0);
    Num (4#1) * Var 23 / (Site 0 * Site 0 * Site 0);
    Num (4#1) * Var 23 / (Site 0 * Site 0 * Site 0)];
    [Num (4#1) * Var 23 / (Site 0 * Site 0 * Site 0);
    Num (4#1) * Var 23 / (Site 0 * Site 0 * Site 0);
    Num (4#1) * Var 23 / (Site 0 * Site 0 * Site 0);
    Num (4#1) * Var 23 / (Site 0 * Site 0 * Site 0) - Num (2#1) / (Site 0 * Site 0);
    Num (4#1) * Var 23 / (Site 0 * Site 0 * Site 0);
    Num (4#1) * Var 23 / (Site 0 * Site 0 * Site 0)]];
    [[Num (2#1) * Var 24 / (Site 0 * Site 0 * Site 0);
    Num (2#1) * Var 24 / (Site 0 * Site 0 * Site 0);
    Num (2#1) * Var 24 / (Site 0 * Site 0 * Site 0);
    Num (2#1) * Var 24 / (Site 0 * Site 0 * Site 0);
    Num (2#1) * Var 24 / (Site 0 * Site 0 * Site 0) - Num (1#1) / (Site 0 * Site 0);
    Num (2#1) * Var 24 / (Site 0 * Site 0 * Site 0)];
    [Num (2#1) * Var 24 / (Site 0 * Site 0 * Site 0);
    Num (2#1) * Var 24 / (Site 0 * Site 0 * Site 0);
    Num (2#1) * Var 24 / (Site 0 * Site 0 * Site 0);
    Num (2#1) * Var 24 / (Site 0 * Site 0 * Site 0);
    Num (2#1) * Var 24 / (Site 0 * Site 0 * Site 0) - Num (1#1) / (Site 0 * Site 0);
    Num (2#1) * Var 24 / (Site 0 * Site 0 * Site 0)];
    [Num (2#1) * Var 24 / (Site 0 * Site 0 * Site 0);
    Num (2#1) * Var 24 / (Site 0 * Site 0 * Site 0);
    Num (2#1) * Var 24 / (Site 0 * Site 0 * Site 0);
    Num (2#1) * Var 24 / (Site 0 * Site 0 * Site 0);
    Num (2#1) * Var 24 / (Site 0 * Site 0 * Site 0) - Num (1#1) / (Site 0 * Site 0);
    Num (2#1) * Var 24 / (Site 0 * Site 0 * Site 0)];
    [Num (2#1) * Var 24 / (Site 0 * Site 0 * Site 0);
    Num (2#1) * Var 24 / (Site 0 * Site 0 * Site 0);
    Num (2#1) * Var 24 / (Site 0 * Site 0 * Site 0);
    Num (2#1) * Var 24 / (Site 0 * Site 0 * Site 0);
    Num (2#1) * Var 24 / (Site 0 * Site 0 * Site 0) - Num (1#1) / (Site 0 * Site 0);
    Num (2#1) * Var 24 / (Site 0 * Site 0 * Site 0)];
    [Num (2#1) * Var 24 / (Site 0 * Site 0 * Site 0) - Num (1#1) / (Site 0 * Site 0);
    Num (2#1) * Var 24 / (Site 0 * Site 0 * Site 0) - Num (1#1) / (Site 0 * Site 0);
    Num (2#1) * Var 24 / (Site 0 * Site 0 * Site 0) - Num (1#1) / (Site 0 * Site 0);
    Num (2#1) * Var 24 / (Site 0 * Site 0 * Site 0) - Num (1#1) / (Site 0 * Site 0);
    Num (2#1) * Var 24 / (Site 0 * Site 0 * Site 0) - Num (1#1) / (Site 0 * Site 0) - Num (1#1) / (Site 0 * Site 0);
    Num (2#1) * Var 24 / (Site 0 * Site 0 * Site 0) - Num (1#1) / (Site 0 * Site 0)];
    [Num (2#1) * Var 24 / (Site 0 * Site 0 * Site 0);
    Num (2#1) * Var 24 / (Site 0 * Site 0 * Site 0);
    Num (2#1) * Var 24 / (Site 0 * Site 0 * Site 0);
    Num (2#1) * Var 24 / (Site 0 * Site 0 * Site 0);
    Num (2#1) * Var 24 / (Site 0 * Site 0 * Site 0) - Num (1#1) / (Site 0 * Site 0);
    Num (2#1) * Var 24 / (Site 0 * Site 0 * Site 0)]]].
(** sources/olivine.c 2519-2719: conOlv, inpMask SECOND, output d3m[i][j][k][l] *)
Definition Olv_con_d3m :=
  [[[[Num (-12#1) * Var 20 / (Site 0 * Site 0 * Site 0 * Site 0) + Num (4#1) / (Site 0 * Site 0 * Site 0) + Num (4#1) / (Site 0 * Site 0 * Site 0) + Num (4#1) / (Site 0 * Site 0 * Site 0);
    Num (-12#1) * Var 20 / (Site 0 * Site 0 * Site 0 * Site 0) + Num (4#1) / (Site 0 * Site 0 * Site 0) + Num (4#1) / (Site 0 * Site 0 * Site 0);
    Num (-12#1) * Var 20 / (Site 0 * Site 0 * Site 0 * Site 0) + Num (4#1) / (Site 0 * Site 0 * Site 0) + Num (4#1) / (Site 0 * Site 0 * Site 0);
    Num (-12#1) * Var 20 / (Site 0 * Site 0 * Site 0 * Site 0) + Num (4#1) / (Site 0 * Site 0 * Site 0) + Num (4#1) / (Site 0 * Site 0 * Site 0);
    Num (-12#1) * Var 20 / (Site 0 * Site 0 * Site 0 * Site 0) + Num (4#1) / (Site 0 * Site 0 * Site 0) + Num (4#1) / (Site 0 * Site 0 * Site 0);
    Num (-12#1) * Var 20 / (Site 0 * Site 0 * Site 0 * Site 0) + Num (4#1) / (Site 0 * Site 0 * Site 0) + Num (4#1) / (Site 0 * Site 0 * Site 0)];
    [Num (-12#1) * Var 20 / (Site 0 * Site 0 * Site 0 * Site 0) + Num (4#1) / (Site 0 * Site 0 * Site 0) + Num (4#1) / (Site 0 * Site 0 * Site 0);
    Num (-12#1) * Var 20 / (Site 0 * Site 0 * Site 0 * Site 0) + Num (4#1) / (Site 0 * Site 0 * Site 0);
    Num (-12#1) * Var 20 / (Site 0 * Site 0 * Site 0 * Site 0) + Num (4#1) / (Site 0 * Site 0 * Site 0);
    Num (-12#1) * Var 20 / (Site 0 * Site 0 * Site 0 * Site 0) + Num (4#1) / (Site 0 * Site 0 * Site 0);
    Num (-12#1) * Var 20 / (Site 0 * Site 0 * Site 0 * Site 0) + Num (4#1) / (Site 0 * Site 0 * Site 0);
    Num (-12#1) * Var 20 / (Site 0 * Site 0 * Site 0 * Site 0) + Num (4#1) / (Site 0 * Site 0 * Site 0)];
    [Num (-12#1) * Var 20 / (Site 0 * Site 0 * Site 0 * Site 0) + Num (4#1) / (Site 0 * Site 0 * Site 0) + Num (4#1) / (Site 0 * Site 0 * Site 0);
    Num (-12#1) * Var 20 / (Site 0 * Site 0 * Site 0 * Site 0) + Num (4#1) / (Site 0 * Site 0 * Site 0);
    Num (-12#1) * Var 20 / (Site 0 * Site 0 * Site 0 * Site 0) + Num (4#1) / (Site 0 * Site 0 * Site 0);
    Num (-12#1) * Var 20 / (Site 0 * Site 0 * Site 0 * Site 0) + Num (4#1) / (Site 0 * Site 0 * Site 0);
    Num (-12#1) * Var 20 / (Site 0 * Site 0 * Site 0 * Site 0) + Num (4#1) / (Site 0 * Site 0 * Site 0);
    Num (-12#1) * Var 20 / (Site 0 * Site 0 * Site 0 * Site 0) + Num (4#1) / (Site 0 * Site 0 * Site 0)];
    [Num (-12#1) * Var 20 / (Site 0 * Site 0 * Site 0 * Site 0) + Num (4#1) / (Site 0 * Site 0 * Site 0) + Num (4#1) / (Site 0 * Site 0 * Site 0);
    Num (-12#1) * Var 20 / (Site 0 * Site 0 * Site 0 * Site 0) + Num (4#1) / (Site 0 * Site 0 * Site 0);
    Num (-12#1) * Var 20 / (Site 0 * Site 0 * Site 0 * Site 0) + Num (4#1) / (Site 0 * Site 0 * Site 0);
    Num (-12#1) * Var 20 / (Site 0 * Site 0 * Site 0 * Site 0) + Num (4#1) / (Site 0 * Site 0 * Site 0);
    Num (-12#1) * Var 20 / (Site 0 * Site 0 * Site 0 * Site 0) + Num (4#1) / (Site 0 * Site 0 * Site 0);
    Num (-12#1) * Var 20 / (Site 0 * Site 0 * Site 0 * Site 0) + Num (4#1) / (Site 0 * Site 0 * Site 0)];
    [Num (-12#1) * Var 20 / (Site 0 * Site 0 * Site 0 * Site 0) + Num (4#1) / (Site 0 * Site 0 * Site 0) + Num (4#1) / (Site 0 * Site 0 * Site 0);
    Num (-12#1) * Var 20 / (Site 0 * Site 0 * Site 0 * Site 0) + Num (4#1) / (Site 0 * Site 0 * Site 0);
    Num (-12#1) * Var 20 / (Site 0 * Site 0 * Site 0 * Site 0) + Num (4#1) / (Site 0 * Site 0 * Site 0);
    Num (-12#1) * Var 20 / (Site 0 * Site 0 * Site 0 * Site 0) + Num (4#1) / (Site 0 * Site 0 * Site 0);
    Num (-12#1) * Var 20 / (Site 0 * Site 0 * Site 0 * Site 0) + Num (4#1) / (Site 0 * Site 0 * Site 0);
    Num (-12#1) * Var 20 / (Site 0 * Site 0 * Site 0 * Site 0) + Num (4#1) / (Site 0 * Site 0 * Site 0)];
    [Num (-12#1) * Var 20 / (Site 0 * Site 0 * Site 0 * Site 0) + Num (4#1) / (Site 0 * Site 0 * Site 0) + Num (4#1) / (Site 0 * Site 0 * Site 0);
    Num (-12#1) * Var 20 / (Site 0 * Site 0 * Site 0 * Site 0) + Num (4#1) / (Site 0 * Site 0 * Site 0);
    Num (-12#1) * Var 20 / (Site 0 * Site 0 * Site 0 * Site 0) + Num (4#1) / (Site 0 * Site 0 * Site 0);
    Num (-12#1) * Var 20 / (Site 0 * Site 0 * Site 0 * Site 0) + Num (4#1) / (Site 0 * Site 0 * Site 0);
    Num (-12#1) * Var 20 / (Site 0 * Site 0 * Site 0 * Site 0) + Num (4#1) / (Site 0 * Site 0 * Site 0);
    Num (-12#1) * Var 20 / (Site 0 * Site 0 * Site 0 * Site 0) + Num (4#1) / (Site 0 * Site 0 * Site 0)]];
    [[Num (-12#1) * Var 20 / (Site 0 * Site 0 * Site 0 * Site 0) + Num (4#1) / (Site 0 * Site 0 * Site 0) + Num (4#1) / (Site 0 * Site 0 * Site 0);
    Num (-12#1) * Var 20 / (Site 0 * Site 0 * Site 0 * Site 0) + Num (4#1) / (Site 0 * Site 0 * Site 0);
    Num (-12#1) * Var 20 / (Site 0 * Site 0 * Site 0 * Site 0) + Num (4#1) / (Site 0 * Site 0 * Site 0);
    Num (-12#1) * Var 20 / (Site 0 * Site 0 * Site 0 * Site 0) + Num (4#1) / (Site 0 * Site 0 * Site 0);
    Num (-12#1) * Var 20 / (Site 0 * Site 0 * Site 0 * Site 0) + Num (4#1) / (Site 0 * Site 0 * Site 0);
    Num (-12#1) * Var 20 / (Site 0 * Site 0 * Site 0 * Site 0) + Num (4#1) / (Site 0 * Site 0 * Site 0)];
    [Num (-12#1) * Var 20 / (Site 0 * Site 0 * Site 0 * Site 0) + Num (4#1) / (Site 0 * Site 0 * Site 0);
    Num (-12#1) * Var 20 / (Site 0 * Site 0 * Site 0 * Site 0);
    Num (-12#1) * Var 20 / (Site 0 * Site 0 * Site 0 * Site 0);
    Num (-12#1) * Var 20 / (Site 0 * Site 0 * Site 0 * Site 0);
    Num (-12#1) * Var 20 / (Site 0 * Site 0 * Site 0 * Site 0);
    Num (-12#1) * Var 20 / (Site 0 * Site 0 * Site 0 * Site 0)];
    [Num (-12#1) * Var 20 / (Site 0 * Site 0 * Site 0 * Site 0) + Num (4#1) / (Site 0 * Site 0 * Site 0);
    Num (-12#1) * Var 20 / (Site 0 * Site 0 * Site 0 * Site 0);
    Num (-12#1) * Var 20 / (Site 0 * Site 0 * Site 0 * Site 0);
    Num (-12#1) * Var 20 / (Site 0 * Site 0 * Site 0 * Site 0);
    Num (-12#1) * Var 20 / (Site 0 * Site 0 * Site 0 * Site 0);
    Num (-12#1) * Var 20 / (Site 0 * Site 0 * Site 0 * Site 0)];
    [Num (-12#1) * Var 20 / (Site 0 * Site 0 * Site 0 * Site 0) + Num (4#1) / (Site 0 * Site 0 * Site 0);
    Num (-12#1) * Var 20 / (Site 0 * Site 0 * Site 0 * Site 0);
    Num (-12#1) * Var 20 / (Site 0 * Site 0 * Site 0 * Site 0);
    Num (-12#1) * Var 20 / (Site 0 * Site 0 * Site 0 * Site 0);
    Num (-12#1) * Var 20 / (Site 0 * Site 0 * Site 0 * Site 0);
    Num (-12#1) * Var 20 / (Site 0 * Site 0 * Site 0 * Site 0)];
    [Num (-12#1) * Var 20 / (Site 0 * Site 0 * Site 0 * Site 0) + Num (4#1) / (Site 0 * Site 0 * Site 0);
    Num (-12#1) * Var 20 / (Site 0 * Site 0 * Site 0 * Site 0);
    Num (-12#1) * Var 20 / (Site 0 * Site 0 * Site 0 * Site 0);
    Num (-12#1) * Var 20 / (Site 0 * Site 0 * Site 0 * Site 0);
    Num (-12#1) * Var 20 / (Site 0 * Site 0 * Site 0 * Site 0);
    Num (-12#1) * Var 20 / (Site 0 * Site 0 * Site 0 * Site 0)];
    [Num (-12#1) * Var 20 / (Site 0 * Site 0 * Site 0 * Site 0) + Num (4#1) / (Site 0 * Site 0 * Site 0);
    Num (-12#1) * Var 20 / (Site 0 * Site 0 * Site 0 * Site 0);
    Num (-12#1) * Var 20 / (Site 0 * Site 0 * Site 0 * Site 0);
    Num (-12#1) * Var 20 / (Site 0 * Site 0 * Site 0 * Site 0);
    Num (-12#1) * Var 20 / (Site 0 * Site 0 * Site 0 * Site 0);
    Num (-12#1) * Var 20 / (Site 0 * Site 0 * Site 0 * Site 0)]];
    [[Num (-12#1) * Var 20 / (Site 0 * Site 0 * Site 0 * Site 0) + Num (4#1) / (Site 0 * Site 0 * Site 0) + Num (4#1) / (Site 0 * Site 0 * Site 0);
    Num (-12#1) * Var 20 / (Site 0 * Site 0 * Site 0 * Site 0) + Num (4#1) / (Site 0 * Site 0 * Site 0);
    Num (-12#1) * Var 20 / (Site 0 * Site 0 * Site 0 * Site 0) + Num (4#1) / (Site 0 * Site 0 * Site 0);
    Num (-12#1) * Var 20 / (Site 0 * Site 0 * Site 0 * Site 0) + Num (4#1) / (Site 0 * Site 0 * Site 0);
    Num (-12#1) * Var 20 / (Site 0 * Site 0 * Site 0 * Site 0) + Num (4#1) / (Site 0 * Site 0 * Site 0);
    Num (-12#1) * Var 20 / (Site 0 * Site 0 * Site 0 * Site 0) + Num (4#1) / (Site 0 * Site 0 * Site 0)];
    [Num (-12#1) * Var 20 / (Site 0 * Site 0 * Site 0 * Site 0) + Num (4#1) / (Site 0 * Site 0 * Site 0);
    Num (-12#1) * Var 20 / (Site 0 * Site 0 * Site 0 * Site 0);
    Num (-12#1) * Var 20 / (Site 0 * Site 0 * Site 0 * Site 0);
    Num (-12#1) * Var 20 / (Site 0 * Site 0 * Site 0 * Site 0);
    Num (-12#1) * Var 20 / (Site 0 * Site 0 * Site 0 * Site 0);
    Num (-12#1) * Var 20 / (Site 0 * Site 0 * Site 0 * Site 0)];
    [Num (-12#1) * Var 20 / (Site 0 * Site 0 * Site 0 * Site 0) + Num (4#1) / (Site 0 * Site 0 * Site 0);
    Num (-12#1) * Var 20 / (Site 0 * Site 0 * Site 0 * Site 0);
    Num (-12#1) * Var 20 / (Site 0 * Site 0 * Site 0 * Site 0);
    Num (-12#1) * Var 20 / (Site 0 * Site 0 * Site 0 * Site 0);
    Num (-12#1) * Var 20 / (Site 0 * Site 0 * Site 0 * Site 0);
    Num (-12#1) * Var 20 / (Site 0 * Site 0 * Site 0 * Site 0)];
    [Num (-12#1) * Var 20 / (Site 0 * Site 0 * Site 0 * Site 0) + Num (4#1) / (Site 0 * Site 0 * Site 0);
    Num (-12#1) * Var 20 / (Site 0 * Site 0 * Site 0 * Site 0);
    Num (-12#1) * Var 20 / (Site 0 * Site 0 * Site 0 * Site 0);
    Num (-12#1) * Var 20 / (Site 0 * Site 0 * Site 0 * Site 0);
    Num (-12#1) * Var 20 / (Site 0 * Site 0 * Site 0 * Site 0);
    Num (-12#1) * Var 20 / (Site 0 * Site 0 * Site 0 * Site 0)];
    [Num (-12#1) * Var 20 / (Site 0 * Site 0 * Site 0 * Site 0) + Num (4#1) / (Site 0 * Site 0 * Site 0);
    Num (-12#1) * Var 20 / (Site 0 * Site 0 * Site 0 * Site 0);
    Num (-12#1) * Var 20 / (Site 0 * Site 0 * Site 0 * Site 0);
    Num (-12#1) * Var 20 / (Site 0 * Site 0 * Site 0 * Site 0);
    Num (-12#1) * Var 20 / (Site 0 * Site 0 * Site 0 * Site 0);
    Num (-12#1) * Var 20 / (Site 0 * Site 0 * Site 0 * Site 0)];
    [Num (-12#1) * Var 20 / (Site 0 * Site 0 * Site 0 * Site 0) + Num (4#1) / (Site 0 * Site 0 * Site 0);
    Num (-12#1) * Var 20 / (Site 0 * Site 0 * Site 0 * Site 0);
    Num (-12#1) * Var 20 / (Site 0 * Site 0 * Site 0 * Site 0);
    Num (-12#1) * Var 20 / (Site 0 * Site 0 * Site 0 * Site 0);
    Num (-12#1) * Var 20 / (Site 0 * Site 0 * Site 0 * Site 0);
    Num (-12#1) * Var 20 / (Site 0 * Site 0 * Site 0 * Site 0)]];
    [[Num (-12#1) * Var 20 / (Site 0 * Site 0 * Site 0 * Site 0) + Num (4#1) / (Site 0 * Site 0 * Site 0) + Num (4#1) / (Site 0 * Site 0 * Site 0);
    Num (-12#1) * Var 20 / (Site 0 * Site 0 * Site 0 * Site 0) + Num (4#1) / (Site 0 * Site 0 * Site 0);
    Num (-12#1) * Var 20 / (Site 0 * Site 0 * Site 0 * Site 0) + Num (4#1) / (Site 0 * Site 0 * Site 0);
    Num (-12#1) * Var 20 / (Site 0 * Site 0 * Site 0 * Site 0) + Num (4#1) / (Site 0 * Site 0 * Site 0);
    Num (-12#1) * Var 20 / (Site 0 * Site 0 * Site 0 * Site 0) + Num (4#1) / (Site 0 * Site 0 * Site 0);
    Num (-12#1) * Var 20 / (Site 0 * Site 0 * Site 0 * Site 0) + Num (4#1) / (Site 0 * Site 0 * Site 0)];
    [Num (-12#1) * Var 20 / (Site 0 * Site 0 * Site 0 * Site 0) + Num (4#1) / (Site 0 * Site 0 * Site 0);
    Num (-12#1) * Var 20 / (Site 0 * Site 0 * Site 0 * Site 0);
    Num (-12#1) * Var 20 / (Site 0 * Site 0 * Site 0 * Site 0);
    Num (-12#1) * Var 20 / (Site 0 * Site 0 * Site 0 * Site 0);
    Num (-12#1) * Var 20 / (Site 0 * Site 0 * Site 0 * Site 0);
    Num (-12#1) * Var 20 / (Site 0 * Site 0 * Site 0 * Site 0)];
    [Num (-12#1) * Var 20 / (Site 0 * Site 0 * Site 0 * Site 0) + Num (4#1) / (Site 0 * Site 0 * Site 0);
    Num (-12#1) * Var 20 / (Site 0 * Site 0 * Site 0 * Site 0);
    Num (-12#1) * Var 20 / (Site 0 * Site 0 * Site 0 * Site 0);
    Num (-12#1) * Var 20 / (Site 0 * Site 0 * Site 0 * Site 0);
    Num (-12#1) * Var 20 / (Site 0 * Site 0 * Site 0 * Site 0);
    Num (-12#1) * Var 20 / (Site 0 * Site 0 * Site 0 * Site 0)];
    [Num (-12#1) * Var 20 / (Site 0 * Site 0 * Site 0 * Site 0) + Num (4#1) / (Site 0 * Site 0 * Site 0);
    Num (-12#1) * Var 20 / (Site 0 * Site 0 * Site 0 * Site 0);
    Num (-12#1) * Var 20 / (Site 0 * Site 0 * Site 0 * Site 0);
    Num (-12#1) * Var 20 / (Site 0 * Site 0 * Site 0 * Site 0);
    Num (-12#1) * Var 20 / (Site 0 * Site 0 * Site 0 * Site 0);
    Num (-12#1) * Var 20 / (Site 0 * Site 0 * Site 0 * Site 0)];
    [Num (-12#1) * Var 20 / (Site 0 * Site 0 * Site 0 * Site 0) + Num (4#1) / (Site 0 * Site 0 * Site 0);
    Num (-12#1) * Var 20 / (Site 0 * Site 0 * Site 0 * Site 0);
    Num (-12#1) * Var 20 / (Site 0 * Site 0 * Site 0 * Site 0);
    Num (-12#1) * Var 20 / (Site 0 * Site 0 * Site 0 * Site 0);
    Num (-12#1) * Var 20 / (Site 0 * Site 0 * Site 0 * Site 0);
    Num (-12#1) * Var 20 / (Site 0 * Site 0 * Site 0 * Site 0)];
    [Num (-12#1) * Var 20 / (Site 0 * Site 0 * Site 0 * Site 0) + Num (4#1) / (Site 0 * Site 0 * Site 0);
    Num (-12#1) * Var 20 / (Site 0 * Site 0 * Site 0 * Site 0);
    Num (-12#1) * Var 20 / (Site 0 * Site 0 * Site 0 * Site 0);
    Num (-12#1) * Var 20 / (Site 0 * Site 0 * Site 0 * Site 0);
    Num (-12#1) * Var 20 / (Site 0 * Site 0 * Site 0 * Site 0);
    Num (-12#1) * Var 20 / (Site 0 * Site 0 * Site 0 * Site 0)]];
    [[Num (-12#1) * Var 20 / (Site 0 * Site 0 * Site 0 * Site 0) + Num (4#1) / (Site 0 * Site 0 * Site 0) + Num (4#1) / (Site 0 * Site 0 * Site 0);
    Num (-12#1) * Var 20 / (Site 0 * Site 0 * Site 0 * Site 0) + Num (4#1) / (Site 0 * Site 0 * Site 0);
    Num (-12#1) * Var 20 / (Site 0 * Site 0 * Site 0 * Site 0) + Num (4#1) / (Site 0 * Site 0 * Site 0);
    Num (-12#1) * Var 20 / (Site 0 * Site 0 * Site 0 * Site 0) + Num (4#1) / (Site 0 * Site 0 * Site 0);
    Num (-12#1) * Var 20 / (Site 0 * Site 0 * Site 0 * Site 0) + Num (4#1) / (Site 0 * Site 0 * Site 0);
    Num (-12#1) * Var 20 / (Site 0 * Site 0 * Site 0 * Site 0) + Num (4#1) / (Site 0 * Site 0 * Site 0)];
    [Num (-12#1) * Var 20 / (Site 0 * Site 0 * Site 0 * Site 0) + Num (4#1) / (Site 0 * Site 0 * Site 0);
    Num (-12#1) * Var 20 / (Site 0 * Site 0 * Site 0 * Site 0);
    Num (-12#1) * Var 20 / (Site 0 * Site 0 * Site 0 * Site 0);
    Num (-12#1) * Var 20 / (Site 0 * Site 0 * Site 0 * Site 0);
    Num (-12#1) * Var 20 / (Site 0 * Site 0 * Site 0 * Site 0);
    Num (-12#1) * Var 20 / (Site 0 * Site 0 * Site 0 * Site 0)];
    [Num (-12#1) * Var 20 / (Site 0 * Site 0 * Site 0 * Site 0) + Num (4#1) / (Site 0 * Site 0 * Site 0);
    Num (-12#1) * Var 20 / (Site 0 * Site 0 * Site 0 * Site 0);
    Num (-12#1) * Var 20 / (Site 0 * Site 0 * Site 0 * Site 0);
    Num (-12#1) * Var 20 / (Site 0 * Site 0 * Site 0 * Site 0);
    Num (-12#1) * Var 20 / (Site 0 * Site 0 * Site 0 * Site 0);
    Num (-12#1) * Var 20 / (Site 0 * Site 0 * Site 0 * Site 0)];
    [Num (-12#1) * Var 20 / (Site 0 * Site 0 * Site 0 * Site 0) + Num (4#1) / (Site 0 * Site 0 * Site 0);
    Num (-12#1) * Var 20 / (Site 0 * Site 0 * Site 0 * Site 0);
    Num (-12#1) * Var 20 / (Site 0 * Site 0 * Site 0 * Site 0);
    Num (-12#1) * Var 20 / (Site 0 * Site 0 * Site 0 * Site 0);
    Num (-12#1) * Var 20 / (Site 0 * Site 0 * Site 0 * Site 0);
    Num (-12#1) * Var 20 / (Site 0 * Site 0 * Site 0 * Site 0)];
    [Num (-12#1) * Var 20 / (Site 0 * Site 0 * Site 0 * Site 0) + Num (4#1) / (Site 0 * Site 0 * Site 0);
    Num (-12#1) * Var 20 / (Site 0 * Site 0 * Site 0 * Site 0);
    Num (-12#1) * Var 20 / (Site 0 * Site 0 * Site 0 * Site 0);
    Num (-12#1) * Var 20 / (Site 0 * Site 0 * Site 0 * Site 0);
    Num (-12#1) * Var 20 / (Site 0 * Site 0 * Site 0 * Site 0);
    Num (-12#1) * Var 20 / (Site 0 * Site 0 * Site 0 * Site 0)];
    [Num (-12#1) * Var 20 / (Site 0 * Site 0 * Site 0 * Site 0) + Num (4#1) / (Site 0 * Site 0 * Site 0);
    Num (-12#1) * Var 20 / (Site 0 * Site 0 * Site 0 * Site 0);
    Num (-12#1) * Var 20 / (Site 0 * Site 0 * Site 0 * Site 0);
    Num (-12#1) * Var 20 / (Site 0 * Site 0 * Site 0 * Site 0);
    Num (-12#1) * Var 20 / (Site 0 * Site 0 * Site 0 * Site 0);
    Num (-12#1) * Var 20 / (Site 0 * Site 0 * Site 0 * Site 0)]];
    [[Num (-12#1) * Var 20 / (Site 0 * Site 0 * Site 0 * Site 0) + Num (4#1) / (Site 0 * Site 0 * Site 0) + Num (4#1) / (Site 0 * Site 0 * Site 0);
    Num (-12#1) * Var 20 / (Site 0 * Site 0 * Site 0 * Site 0) + Num (4#1) / (Site 0 * Site 0 * Site 0);
    Num (-12#1) * Var 20 / (Site 0 * Site 0 * Site 0 * Site 0) + Num (4#1) / (Site 0 * Site 0 * Site 0);
    Num (-12#1) * Var 20 / (Site 0 * Site 0 * Site 0 * Site 0) + Num (4#1) / (Site 0 * Site 0 * Site 0);
    Num (-12#1) * Var 20 / (Site 0 * Site 0 * Site 0 * Site 0) + Num (4#1) / (Site 0 * Site 0 * Site 0);
    Num (-12#1) * Var 20 / (Site 0 * Site 0 * Site 0 * Site 0) + Num (4#1) / (Site 0 * Site 0 * Site 0)];
    [Num (-12#1) * Var 20 / (Site 0 * Site 0 * Site 0 * Site 0) + Num (4#1) / (Site 0 * Site 0 * Site 0);
    Num (-12#1) * Var 20 / (Site 0 * Site 0 * Site 0 * Site 0);
    Num (-12#1) * Var 20 / (Site 0 * Site 0 * Site 0 * Site 0);
    Num (-12#1) * Var 20 / (Site 0 * Site 0 * Site 0 * Site 0);
    Num (-12#1) * Var 20 / (Site 0 * Site 0 * Site 0 * Site 0);
    Num (-12#1) * Var 20 / (Site 0 * Site 0 * Site 0 * Site 0)];
    [Num (-12#1) * Var 20 / (Site 0 * Site 0 * Site 0 * Site 0) + Num (4#1) / (Site 0 * Site 0 * Site 0);
    Num (-12#1) * Var 20 / (Site 0 * Site 0 * Site 0 * Site 0);
    Num (-12#1) * Var 20 / (Site 0 * Site 0 * Site 0 * Site 0);
    Num (-12#1) * Var 20 / (Site 0 * Site 0 * Site 0 * Site 0);
    Num (-12#1) * Var 20 / (Site 0 * Site 0 * Site 0 * Site 0);
    Num (-12#1) * Var 20 / (Site 0 * Site 0 * Site 0 * Site 0)];
    [Num (-12#1) * Var 20 / (Site 0 * Site 0 * Site 0 * Site 0) + Num (4#1) / (Site 0 * Site 0 * Site 0);
    Num (-12#1) * Var 20 / (Site 0 * Site 0 * Site 0 * Site 0);
    Num (-12#1) * Var 20 / (Site 0 * Site 0 * Site 0 * Site 0);
    Num (-12#1) * Var 20 / (Site 0 * Site 0 * Site 0 * Site 0);
    Num (-12#1) * Var 20 / (Site 0 * Site 0 * Site 0 * Site 0);
    Num (-12#1) * Var 20 / (Site 0 * Site 0 * Site 0 * Site 0)];
    [Num (-12#1) * Var 20 / (Site 0 * Site 0 * Site 0 * Site 0) + Num (4#1) / (Site 0 * Site 0 * Site 0);
    Num (-12#1) * Var 20 / (Site 0 * Site 0 * Site 0 * Site 0);
    Num (-12#1) * Var 20 / (Site 0 * Site 0 * Site 0 * Site 0);
    Num (-12#1) * Var 20 / (Site 0 * Site 0 * Site 0 * Site 0);
    Num (-12#1) * Var 20 / (Site 0 * Site 0 * Site 0 * Site 0);
    Num (-12#1) * Var 20 / (Site 0 * Site 0 * Site 0 * Site 0)];
    [Num (-12#1) * Var 20 / (Site 0 * Site 0 * Site 0 * Site 0) + Num (4#1) / (Site 0 * Site 0 * Site 0);
    Num (-12#1) * Var 20 / (Site 0 * Site 0 * Site 0 * Site 0);
    Num (-12#1) * Var 20 / (Site 0 * Site 0 * Site 0 * Site 0);
    Num (-12#1) * Var 20 / (Site 0 * Site 0 * Site 0 * Site 0);
    Num (-12#1) * Var 20 / (Site 0 * Site 0 * Site 0 * Site 0);
    Num (-12#1) * Var 20 / (Site 0 * Site 0 * Site 0 * Site 0)]]];
    [[[Num (-12#1) * Var 21 / (Site 0 * Site 0 * Site 0 * Site 0);
    Num (-12#1) * Var 21 / (Site 0 * Site 0 * Site 0 * Site 0) + Num (4#1) / (Site 0 * Site 0 * Site 0);
    Num (-12#1) * Var 21 / (Site 0 * Site 0 * Site 0 * Site 0);
    Num (-12#1) * Var 21 / (Site 0 * Site 0 * Site 0 * Site 0);
    Num (-12#1) * Var 21 / (Site 0 * Site 0 * Site 0 * Site 0);
    Num (-12#1) * Var 21 / (Site 0 * Site 0 * Site 0 * Site 0)];
    [Num (-12#1) * Var 21 / (Site 0 * Site 0 * Site 0 * Site 0) + Num (4#1) / (Site 0 * Site 0 * Site 0);
    Num (-12#1) * Var 21 / (Site 0 * Site 0 * Site 0 * Site 0) + Num (4#1) / (Site 0 * Site 0 * Site 0) + Num (4#1) / (Site 0 * Site 0 * Site 0);
    Num (-12#1) * Var 21 / (Site 0 * Site 0 * Site 0 * Site 0) + Num (4#1) / (Site 0 * Site 0 * Site 0);
    Num (-12#1) * Var 21 / (Site 0 * Site 0 * Site 0 * Site 0) + Num (4#1) / (Site 0 * Site 0 * Site 0);
    Num (-12#1) * Var 21 / (Site 0 * Site 0 * Site 0 * Site 0) + Num (4#1) / (Site 0 * Site 0 * Site 0);
    Num (-12#1) * Var 21 / (Site 0 * Site 0 * Site 0 * Site 0) + Num (4#1) / (Site 0 * Site 0 * Site 0)];
    [Num (-12#1) * Var 21 / (Site 0 * Site 0 * Site 0 * Site 0);
    Num (-12#1) * Var 21 / (Site 0 * Site 0 * Site 0 * Site 0) + Num (4#1) / (Site 0 * Site 0 * Site 0);
    Num (-12#1) * Var 21 / (Site 0 * Site 0 * Site 0 * Site 0);
    Num (-12#1) * Var 21 / (Site 0 * Site 0 * Site 0 * Site 0);
    Num (-12#1) * Var 21 / (Site 0 * Site 0 * Site 0 * Site 0);
    Num (-12#1) * Var 21 / (Site 0 * Site 0 * Site 0 * Site 0)];
    [Num (-12#1) * Var 21 / (Site 0 * Site 0 * Site 0 * Site 0);
    Num (-12#1) * Var 21 / (Site 0 * Site 0 * Site 0 * Site 0) + Num (4#1) / (Site 0 * Site 0 * Site 0);
    Num (-12#1) * Var 21 / (Site 0 * Site 0 * Site 0 * Site 0);
    Num (-12#1) * Var 21 / (Site 0 * Site 0 * Site 0 * Site 0);
    Num (-12#1) * Var 21 / (Site 0 * Site 0 * Site 0 * Site 0);
    Num (-12#1) * Var 21 / (Site 0 * Site 0 * Site 0 * Site 0)];
    [Num (-12#1) * Var 21 / (Site 0 * Site 0 * Site 0 * Site 0);
    Num (-12#1) * Var 21 / (Site 0 * Site 0 * Site 0 * Site 0) + Num (4#1) / (Site 0 * Site 0 * Site 0);
    Num (-12#1) * Var 21 / (Site 0 * Site 0 * Site 0 * Site 0);
    Num (-12#1) * Var 21 / (Site 0 * Site 0 * Site 0 * Site 0);
    Num (-12#1) * Var 21 / (Site 0 * Site 0 * Site 0 * Site 0);
    Num (-12#1) * Var 21 / (Site 0 * Site 0 * Site 0 * Site 0)];
    [Num (-12#1) * Var 21 / (Site 0 * Site 0 * Site 0 * Site 0);
    Num (-12#1) * Var 21 / (Site 0 * Site 0 * Site 0 * Site 0) + Num (4#1) / (Site 0 * Site 0 * Site 0);
    Num (-12#1) * Var 21 / (Site 0 * Site 0 * Site 0 * Site 0);
    Num (-12#1) * Var 21 / (Site 0 * Site 0 * Site 0 * Site 0);
    Num (-12#1) * Var 21 / (Site 0 * Site 0 * Site 0 * Site 0);
    Num (-12#1) * Var 21 / (Site 0 * Site 0 * Site 0 * Site 0)]];
    [[Num (-12#1) * Var 21 / (Site 0 * Site 0 * Site 0 * Site 0) + Num (4#1) / (Site 0 * Site 0 * Site 0);
    Num (-12#1) * Var 21 / (Site 0 * Site 0 * Site 0 * Site 0) + Num (4#1) / (Site 0 * Site 0 * Site 0) + Num (4#1) / (Site 0 * Site 0 * Site 0);
    Num (-12#1) * Var 21 / (Site 0 * Site 0 * Site 0 * Site 0) + Num (4#1) / (Site 0 * Site 0 * Site 0);
    Num (-12#1) * Var 21 / (Site 0 * Site 0 * Site 0 * Site 0) + Num (4#1) / (Site 0 * Site 0 * Site 0);
    Num (-12#1) * Var 21 / (Site 0 * Site 0 * Site 0 * Site 0) + Num (4#1) / (Site 0 * Site 0 * Site 0);
    Num (-12#1) * Var 21 / (Site 0 * Site 0 * Site 0 * Site 0) + Num (4#1) / (Site 0 * Site 0 * Site 0)];
    [Num (-12#1) * Var 21 / (Site 0 * Site 0 * Site 0 * Site 0) + Num (4#1) / (Site 0 * Site 0 * Site 0) + Num (4#1) / (Site 0 * Site 0 * Site 0);
    Num (-12#1) * Var 21 / (Site 0 * Site 0 * Site 0 * Site 0) + Num (4#1) / (Site 0 * Site 0 * Site 0) + Num (4#1) / (Site 0 * Site 0 * Site 0) + Num (4#1) / (Site 0 * Site 0 * Site 0);
    Num (-12#1) * Var 21 / (Site 0 * Site 0 * Site 0 * Site 0) + Num (4#1) / (Site 0 * Site 0 * Site 0) + Num (4#1) / (Site 0 * Site 0 * Site 0);
    Num (-12#1) * Var 21 / (Site 0 * Site 0 * Site 0 * Site 0) + Num (4#1) / (Site 0 * Site 0 * Site 0) + Num (4#1) / (Site 0 * Site 0 * Site 0);
    Num (-12#1) * Var 21 / (Site 0 * Site 0 * Site 0 * Site 0) + Num (4#1) / (Site 0 * Site 0 * Site 0) + Num (4#1) / (Site 0 * Site 0 * Site 0);
    Num (-12#1) * Var 21 / (Site 0 * Site 0 * Site 0 * Site 0) + Num (4#1) / (Site 0 * Site 0 * Site 0) + Num (4#1) / (Site 0 * Site 0 * Site 0)];
    [Num (-12#1) * Var 21 / (Site 0 * Site 0 * Site 0 * Site 0) + Num (4#1) / (Site 0 * Site 0 * Site 0);
    Num (-12#1) * Var 21 / (Site 0 * Site 0 * Site 0 * Site 0) + Num (4#1) / (Site 0 * Site 0 * Site 0) + Num (4#1) / (Site 0 * Site 0 * Site 0);
    Num (-12#1) * Var 21 / (Site 0 * Site 0 * Site 0 * Site 0) + Num (4#1) / (Site 0 * Site 0 * Site 0);
    Num (-12#1) * Var 21 / (Site 0 * Site 0 * Site 0 * Site 0) + Num (4#1) / (Site 0 * Site 0 * Site 0);
    Num (-12#1) * Var 21 / (Site 0 * Site 0 * Site 0 * Site 0) + Num (4#1) / (Site 0 * Site 0 * Site 0);
    Num (-12#1) * Var 21 / (Site 0 * Site 0 * Site 0 * Site 0) + Num (4#1) / (Site 0 * Site 0 * Site 0)];
    [Num (-12#1) * Var 21 / (Site 0 * Site 0 * Site 0 * Site 0) + Num (4#1) / (Site 0 * Site 0 * Site 0);
    Num (-12#1) * Var 21 / (Site 0 * Site 0 * Site 0 * Site 0) + Num (4#1) / (Site 0 * Site 0 * Site 0) + Num (4#1) / (Site 0 * Site 0 * Site 0);
    Num (-12#1) * Var 21 / (Site 0 * Site 0 * Site 0 * Site 0) + Num (4#1) / (Site 0 * Site 0 * Site 0);
    Num (-12#1) * Var 21 / (Site 0 * Site 0 * Site 0 * Site 0) + Num (4#1) / (Site 0 * Site 0 * Site 0);
    Num (-12#1) * Var 21 / (Site 0 * Site 0 * Site 0 * Site 0) + Num (4#1) / (Site 0 * Site 0 * Site 0);
    Num (-12#1) * Var 21 / (Site 0 * Site 0 * Site 0 * Site 0) + Num (4#1) / (Site 0 * Site 0 * Site 0)];
    [Num (-12#1) * Var 21 / (Site 0 * Site 0 * Site 0 * Site 0) + Num (4#1) / (Site 0 * Site 0 * Site 0);
    Num (-12#1) * Var 21 / (Site 0 * Site 0 * Site 0 * Site 0) + Num (4#1) / (Site 0 * Site 0 * Site 0) + Num (4#1) / (Site 0 * Site 0 * Site 0);
    Num (-12#1) * Var 21 / (Site 0 * Site 0 * Site 0 * Site 0) + Num (4#1) / (Site 0 * Site 0 * Site 0);
    Num (-12#1) * Var 21 / (Site 0 * Site 0 * Site 0 * Site 0) + Num (4#1) / (Site 0 * Site 0 * Site 0);
    Num (-12#1) * Var 21 / (Site 0 * Site 0 * Site 0 * Site 0) + Num (4#1) / (Site 0 * Site 0 * Site 0);
    Num (-12#1) * Var 21 / (Site 0 * Site 0 * Site 0 * Site 0) + Num (4#1) / (Site 0 * Site 0 * Site 0)];
    [Num (-12#1) * Var 21 / (Site 0 * Site 0 * Site 0 * Site 0) + Num (4#1) / (Site 0 * Site 0 * Site 0);
    Num (-12#1) * Var 21 / (Site 0 * Site 0 * Site 0 * Site 0) + Num (4#1) / (Site 0 * Site 0 * Site 0) + Num (4#1) / (Site 0 * Site 0 * Site 0);
    Num (-12#1) * Var 21 / (Site 0 * Site 0 * Site 0 * Site 0) + Num (4#1) / (Site 0 * Site 0 * Site 0);
    Num (-12#1) * Var 21 / (Site 0 * Site 0 * Site 0 * Site 0) + Num (4#1) / (Site 0 * Site 0 * Site 0);
    Num (-12#1) * Var 21 / (Site 0 * Site 0 * Site 0 * Site 0) + Num (4#1) / (Site 0 * Site 0 * Site 0);
    Num (-12#1) * Var 21 / (Site 0 * Site 0 * Site 0 * Site 0) + Num (4#1) / (Site 0 * Site 0 * Site 0)]];
    [[Num (-12#1) * Var 21 / (Site 0 * Site 0 * Site 0 * Site 0);
    Num (-12#1) * Var 21 / (Site 0 * Site 0 * Site 0 * Site 0) + Num (4#1) / (Site 0 * Site 0 * Site 0);
    Num (-12#1) * Var 21 / (Site 0 * Site 0 * Site 0 * Site 0);
    Num (-12#1) * Var 21 / (Site 0 * Site 0 * Site 0 * Site 0);
    Num (-12#1) * Var 21 / (Site 0 * Site 0 * Site 0 * Site 0);
    Num (-12#1) * Var 21 / (Site 0 * Site 0 * Site 0 * Site 0)];
    [Num (-12#1) * Var 21 / (Site 0 * Site 0 * Site 0 * Site 0) + Num (4#1) / (Site 0 * Site 0 * Site 0);
    Num (-12#1) * Var 21 / (Site 0 * Site 0 * Site 0 * Site 0) + Num (4#1) / (Site 0 * Site 0 * Site 0) + Num (4#1) / (Site 0 * Site 0 * Site 0);
    Num (-12#1) * Var 21 / (Site 0 * Site 0 * Site 0 * Site 0) + Num (4#1) / (Site 0 * Site 0 * Site 0);
    Num (-12#1) * Var 21 / (Site 0 * Site 0 * Site 0 * Site 0) + Num (4#1) / (Site 0 * Site 0 * Site 0);
    Num (-12#1) * Var 21 / (Site 0 * Site 0 * Site 0 * Site 0) + Num (4#1) / (Site 0 * Site 0 * Site 0);
    Num (-12#1) * Var 21 / (Site 0 * Site 0 * Site 0 * Site 0) + Num (4#1) / (Site 0 * Site 0 * Site 0)];
    [Num (-12#1) * Var 21 / (Site 0 * Site 0 * Site 0 * Site 0);
    Num (-12#1) * Var 21 / (Site 0 * Site 0 * Site 0 * Site 0) + Num (4#1) / (Site 0 * Site 0 * Site 0);
    Num (-12#1) * Var 21 / (Site 0 * Site 0 * Site 0 * Site 0);
    Num (-12#1) * Var 21 / (Site 0 * Site 0 * Site 0 * Site 0);
    Num (-12#1) * Var 21 / (Site 0 * Site 0 * Site 0 * Site 0);
    Num (-12#1) * Var 21 / (Site 0 * Site 0 * Site 0 * Site 0)];
    [Num (-12#1) * Var 21 / (Site 0 * Site 0 * Site 0 * Site 0);
    Num (-12#1) * Var 21 / (Site 0 * Site 0 * Site 0 * Site 0) + Num (4#1) / (Site 0 * Site 0 * Site 0);
    Num (-12#1) * Var 21 / (Site 0 * Site 0 * Site 0 * Site 0);
    Num (-12#1) * Var 21 / (Site 0 * Site 0 * Site 0 * Site 0);
    Num (-12#1) * Var 21 / (Site 0 * Site 0 * Site 0 * Site 0);
    Num (-12#1) * Var 21 / (Site 0 * Site 0 * Site 0 * Site 0)];
    [Num (-12#1) * Var 21 / (Site 0 * Site 0 * Site 0 * Site 0);
    Num (-12#1) * Var 21 / (Site 0 * Site 0 * Site 0 * Site 0) + Num (4#1) / (Site 0 * Site 0 * Site 0);
    Num (-12#1) * Var 21 / (Site 0 * Site 0 * Site 0 * Site 0);
    Num (-12#1) * Var 21 / (Site 0 * Site 0 * Site 0 * Site 0);
    Num (-12#1) * Var 21 / (Site 0 * Site 0 * Site 0 * Site 0);
    Num (-12#1) * Var 21 / (Site 0 * Site 0 * Site 0 * Site 0)];
    [Num (-12#1) * Var 21 / (Site 0 * Site 0 * Site 0 * Site 0);
    Num (-12#1) * Var 21 / (Site 0 * Site 0 * Site 0 * Site 0) + Num (4#1) / (Site 0 * Site 0 * Site 0);
    Num (-12#1) * Var 21 / (Site 0 * Site 0 * Site 0 * Site 0);
    Num (-12#1) * Var 21 / (Site 0 * Site 0 * Site 0 * Site 0);
    Num (-12#1) * Var 21 / (Site 0 * Site 0 * Site 0 * Site 0);
    Num (-12#1) * Var 21 / (Site 0 * Site 0 * Site 0 * Site 0)]];
    [[Num (-12#1) * Var 21 / (Site 0 * Site 0 * Site 0 * Site 0);
    Num (-12#1) * Var 21 / (Site 0 * Site 0 * Site 0 * Site 0) + Num (4#1) / (Site 0 * Site 0 * Site 0);
    Num (-12#1) * Var 21 / (Site 0 * Site 0 * Site 0 * Site 0);
    Num (-12#1) * Var 21 / (Site 0 * Site 0 * Site 0 * Site 0);
    Num (-12#1) * Var 21 / (Site 0 * Site 0 * Site 0 * Site 0);
    Num (-12#1) * Var 21 / (Site 0 * Site 0 * Site 0 * Site 0)];
    [Num (-12#1) * Var 21 / (Site 0 * Site 0 * Site 0 * Site 0) + Num (4#1) / (Site 0 * Site 0 * Site 0);
    Num (-12#1) * Var 21 / (Site 0 * Site 0 * Site 0 * Site 0) + Num (4#1) / (Site 0 * Site 0 * Site 0) + Num (4#1) / (Site 0 * Site 0 * Site 0);
    Num (-12#1) * Var 21 / (Site 0 * Site 0 * Site 0 * Site 0) + Num (4#1) / (Site 0 * Site 0 * Site 0);
    Num (-12#1) * Var 21 / (Site 0 * Site 0 * Site 0 * Site 0) + Num (4#1) / (Site 0 * Site 0 * Site 0);
    Num (-12#1) * Var 21 / (Site 0 * Site 0 * Site 0 * Site 0) + Num (4#1) / (Site 0 * Site 0 * Site 0);
    Num (-12#1) * Var 21 / (Site 0 * Site 0 * Site 0 * Site 0) + Num (4#1) / (Site 0 * Site 0 * Site 0)];
    [Num (-12#1) * Var 21 / (Site 0 * Site 0 * Site 0 * Site 0);
    Num (-12#1) * Var 21 / (Site 0 * Site 0 * Site 0 * Site 0) + Num (4#1) / (Site 0 * Site 0 * Site 0);
    Num (-12#1) * Var 21 / (Site 0 * Site 0 * Site 0 * Site 0);
    Num (-12#1) * Var 21 / (Site 0 * Site 0 * Site 0 * Site 0);
    Num (-12#1) * Var 21 / (Site 0 * Site 0 * Site 0 * Site 0);
    Num (-12#1) * Var 21 / (Site 0 * Site 0 * Site 0 * Site 0)];
    [Num (-12#1) * Var 21 / (Site 0 * Site 0 * Site 0 * Site 0);
    Num (-12#1) * Var 21 / (Site 0 * Site 0 * Site 0 * Site 0) + Num (4#1) / (Site 0 * Site 0 * Site 0);
    Num (-12#1) * Var 21 / (Site 0 * Site 0 * Site 0 * Site 0);
    Num (-12#1) * Var 21 / (Site 0 * Site 0 * Site 0 * Site 0);
    Num (-12#1) * Var 21 / (Site 0 * Site 0 * Site 0 * Site 0);
    Num (-12#1) * Var 21 / (Site 0 * Site 0 * Site 0 * Site 0)];
    [Num (-12#1) * Var 21 / (Site 0 * Site 0 * Site 0 * Site 0);
    Num (-12#1) * Var 21 / (Site 0 * Site 0 * Site 0 * Site 0) + Num (4#1) / (Site 0 * Site 0 * Site 0);
    Num (-12#1) * Var 21 / (Site 0 * Site 0 * Site 0 * Site 0);
    Num (-12#1) * Var 21 / (Site 0 * Site 0 * Site 0 * Site 0);
    Num (-12#1) * Var 21 / (Site 0 * Site 0 * Site 0 * Site 0);
    Num (-12#1) * Var 21 / (Site 0 * Site 0 * Site 0 * Site 0)];
    [Num (-12#1) * Var 21 / (Site 0 * Site 0 * Site 0 * Site 0);
    Num (-12#1) * Var 21 / (Site 0 * Site 0 * Site 0 * Site 0) + Num (4#1) / (Site 0 * Site 0 * Site 0);
    Num (-12#1) * Var 21 / (Site 0 * Site 0 * Site 0 * Site 0);
    Num (-12#1) * Var 21 / (Site 0 * Site 0 * Site 0 * Site 0);
    Num (-12#1) * Var 21 / (Site 0 * Site 0 * Site 0 * Site 0);
    Num (-12#1) * Var 21 / (Site 0 * Site 0 * Site 0 * Site 0)]];
    [[Num (-12#1) * Var 21 / (Site 0 * Site 0 * Site 0 * Site 0);
    Num (-12#1) * Var 21 / (Site 0 * Site 0 * Site 0 * Site 0) + Num (4#1) / (Site 0 * Site 0 * Site 0);
    Num (-12#1) * Var 21 / (Site 0 * Site 0 * Site 0 * Site 0);
    Num (-12#1) * Var 21 / (Site 0 * Site 0 * Site 0 * Site 0);
    Num (-12#1) * Var 21 / (Site 0 * Site 0 * Site 0 * Site 0);
    Num (-12#1) * Var 21 / (Site 0 * Site 0 * Site 0 * Site 0)];
    [Num (-12#1) * Var 21 / (Site 0 * Site 0 * Site 0 * Site 0) + Num (4#1) / (Site 0 * Site 0 * Site 0);
    Num (-12#1) * Var 21 / (Site 0 * Site 0 * Site 0 * Site 0) + Num (4#1) / (Site 0 * Site 0 * Site 0) + Num (4#1) / (Site 0 * Site 0 * Site 0);
    Num (-12#1) * Var 21 / (Site 0 * Site 0 * Site 0 * Site 0) + Num (4#1) / (Site 0 * Site 0 * Site 0);
    Num (-12#1) * Var 21 / (Site 0 * Site 0 * Site 0 * Site 0) + Num (4#1) / (Site 0 * Site 0 * Site 0);
    Num (-12#1) * Var 21 / (Site 0 * Site 0 * Site 0 * Site 0) + Num (4#1) / (Site 0 * Site 0 * Site 0);
    Num (-12#1) * Var 21 / (Site 0 * Site 0 * Site 0 * Site 0) + Num (4#1) / (Site 0 * Site 0 * Site 0)];
    [Num (-12#1) * Var 21 / (Site 0 * Site 0 * Site 0 * Site 0);
    Num (-12#1) * Var 21 / (Site 0 * Site 0 * Site 0 * Site 0) + Num (4#1) / (Site 0 * Site 0 * Site 0);
    Num (-12#1) * Var 21 / (Site 0 * Site 0 * Site 0 * Site 0);
    Num (-12#1) * Var 21 / (Site 0 * Site 0 * Site 0 * Site 0);
    Num (-12#1) * Var 21 / (Site 0 * Site 0 * Site 0 * Site 0);
    Num (-12#1) * Var 21 / (Site 0 * Site 0 * Site 0 * Site 0)];
    [Num (-12#1) * Var 21 / (Site 0 * Site 0 * Site 0 * Site 0);
    Num (-12#1) * Var 21 / (Site 0 * Site 0 * Site 0 * Site 0) + Num (4#1) / (Site 0 * Site 0 * Site 0);
    Num (-12#1) * Var 21 / (Site 0 * Site 0 * Site 0 * Site 0);
    Num (-12#1) * Var 21 / (Site 0 * Site 0 * Site 0 * Site 0);
    Num (-12#1) * Var 21 / (Site 0 * Site 0 * Site 0 * Site 0);
    Num (-12#1) * Var 21 / (Site 0 * Site 0 * Site 0 * Site 0)];
    [Num (-12#1) * Var 21 / (Site 0 * Site 0 * Site 0 * Site 0);
    Num (-12#1) * Var 21 / (Site 0 * Site 0 * Site 0 * Site 0) + Num (4#1) / (Site 0 * Site 0 * Site 0);
    Num (-12#1) * Var 21 / (Site 0 * Site 0 * Site 0 * Site 0);
    Num (-12#1) * Var 21 / (Site 0 * Site 0 * Site 0 * Site 0);
    Num (-12#1) * Var 21 / (Site 0 * Site 0 * Site 0 * Site 0);
    Num (-12#1) * Var 21 / (Site 0 * Site 0 * Site 0 * Site 0)];
    [Num (-12#1) * Var 21 / (Site 0 * Site 0 * Site 0 * Site 0);
    Num (-12#1) * Var 21 / (Site 0 * Site 0 * Site 0 * Site 0) + Num (4#1) / (Site 0 * Site 0 * Site 0);
    Num (-12#1) * Var 21 / (Site 0 * Site 0 * Site 0 * Site 0);
    Num (-12#1) * Var 21 / (Site 0 * Site 0 * Site 0 * Site 0);
    Num (-12#1) * Var 21 / (Site 0 * Site 0 * Site 0 * Site 0);
    Num (-12#1) * Var 21 / (Site 0 * Site 0 * Site 0 * Site 0)]];
    [[Num (-12#1) * Var 21 / (Site 0 * Site 0 * Site 0 * Site 0);
    Num (-12#1) * Var 21 / (Site 0 * Site 0 * Site 0 * Site 0) + Num (4#1) / (Site 0 * Site 0 * Site 0);
    Num (-12#1) * Var 21 / (Site 0 * Site 0 * Site 0 * Site 0);
    Num (-12#1) * Var 21 / (Site 0 * Site 0 * Site 0 * Site 0);
    Num (-12#1) * Var 21 / (Site 0 * Site 0 * Site 0 * Site 0);
    Num (-12#1) * Var 21 / (Site 0 * Site 0 * Site 0 * Site 0)];
    [Num (-12#1) * Var 21 / (Site 0 * Site 0 * Site 0 * Site 0) + Num (4#1) / (Site 0 * Site 0 * Site 0);
    Num (-12#1) * Var 21 / (Site 0 * Site 0 * Site 0 * Site 0) + Num (4#1) / (Site 0 * Site 0 * Site 0) + Num (4#1) / (Site 0 * Site 0 * Site 0);
    Num (-12#1) * Var 21 / (Site 0 * Site 0 * Site 0 * Site 0) + Num (4#1) / (Site 0 * Site 0 * Site 0);
    Num (-12#1) * Var 21 / (Site 0 * Site 0 * Site 0 * Site 0) + Num (4#1) / (Site 0 * Site 0 * Site 0);
    Num (-12#1) * Var 21 / (Site 0 * Site 0 * Site 0 * Site 0) + Num (4#1) / (Site 0 * Site 0 * Site 0);
    Num (-12#1) * Var 21 / (Site 0 * Site 0 * Site 0 * Site 0) + Num (4#1) / (Site 0 * Site 0 * Site 0)];
    [Num (-12#1) * Var 21 / (Site 0 * Site 0 * Site 0 * Site 0);
    Num (-12#1) * Var 21 / (Site 0 * Site 0 * Site 0 * Site 0) + Num (4#1) / (Site 0 * Site 0 * Site 0);
    Num (-12#1) * Var 21 / (Site 0 * Site 0 * Site 0 * Site 0);
    Num (-12#1) * Var 21 / (Site 0 * Site 0 * Site 0 * Site 0);
    Num (-12#1) * Var 21 / (Site 0 * Site 0 * Site 0 * Site 0);
    Num (-12#1) * Var 21 / (Site 0 * Site 0 * Site 0 * Site 0)];
    [Num (-12#1) * Var 21 / (Site 0 * Site 0 * Site 0 * Site 0);
    Num (-12#1) * Var 21 / (Site 0 * Site 0 * Site 0 * Site 0) + Num (4#1) / (Site 0 * Site 0 * Site 0);
    Num (-12#1) * Var 21 / (Site 0 * Site 0 * Site 0 * Site 0);
    Num (-12#1) * Var 21 / (Site 0 * Site 0 * Site 0 * Site 0);
    Num (-12#1) * Var 21 / (Site 0 * Site 0 * Site 0 * Site 0);
    Num (-12#1) * Var 21 / (Site 0 * Site 0 * Site 0 * Site 0)];
    [Num (-12#1) * Var 21 / (Site 0 * Site 0 * Site 0 * Site 0);
    Num (-12#1) * Var 21 / (Site 0 * Site 0 * Site 0 * Site 0) + Num (4#1) / (Site 0 * Site 0 * Site 0);
    Num (-12#1) * Var 21 / (Site 0 * Site 0 * Site 0 * Site 0);
    Num (-12#1) * Var 21 / (Site 0 * Site 0 * Site 0 * Site 0);
    Num (-12#1) * Var 21 / (Site 0 * Site 0 * Site 0 * Site 0);
    Num (-12#1) * Var 21 / (Site 0 * Site 0 * Site 0 * Site 0)];
    [Num (-12#1) * Var 21 / (Site 0 * Site 0 * Site 0 * Site 0);
    Num (-12#1) * Var 21 / (Site 0 * Site 0 * Site 0 * Site 0) + Num (4#1) / (Site 0 * Site 0 * Site 0);
    Num (-12#1) * Var 21 / (Site 0 * Site 0 * Site 0 * Site 0);
    Num (-12#1) * Var 21 / (Site 0 * Site 0 * Site 0 * Site 0);
    Num (-12#1) * Var 21 / (Site 0 * Site 0 * Site 0 * Site 0);
    Num (-12#1) * Var 21 / (Site 0 * Site 0 * Site 0 * Site 0)]]];
    [[[Num (-12#1) * Var 22 / (Site 0 * Site 0 * Site 0 * Site 0);
    Num (-12#1) * Var 22 / (Site 0 * Site 0 * Site 0 * Site 0);
    Num (-12#1) * Var 22 / (Site 0 * Site 0 * Site 0 * Site 0) + Num (4#1) / (Site 0 * Site 0 * Site 0);
    Num (-12#1) * Var 22 / (Site 0 * Site 0 * Site 0 * Site 0);
    Num (-12#1) * Var 22 / (Site 0 * Site 0 * Site 0 * Site 0);
    Num (-12#1) * Var 22 / (Site 0 * Site 0 * Site 0 * Site 0)];
    [Num (-12#1) * Var 22 / (Site 0 * Site 0 * Site 0 * Site 0);
    Num (-12#1) * Var 22 / (Site 0 * Site 0 * Site 0 * Site 0);
    Num (-12#1) * Var 22 / (Site 0 * Site 0 * Site 0 * Site 0) + Num (4#1) / (Site 0 * Site 0 * Site 0);
    Num (-12#1) * Var 22 / (Site 0 * Site 0 * Site 0 * Site 0);
    Num (-12#1) * Var 22 / (Site 0 * Site 0 * Site 0 * Site 0);
    Num (-12#1) * Var 22 / (Site 0 * Site 0 * Site 0 * Site 0)];
    [Num (-12#1) * Var 22 / (Site 0 * Site 0 * Site 0 * Site 0) + Num (4#1) / (Site 0 * Site 0 * Site 0);
    Num (-12#1) * Var 22 / (Site 0 * Site 0 * Site 0 * Site 0) + Num (4#1) / (Site 0 * Site 0 * Site 0);
    Num (-12#1) * Var 22 / (Site 0 * Site 0 * Site 0 * Site 0) + Num (4#1) / (Site 0 * Site 0 * Site 0) + Num (4#1) / (Site 0 * Site 0 * Site 0);
    Num (-12#1) * Var 22 / (Site 0 * Site 0 * Site 0 * Site 0) + Num (4#1) / (Site 0 * Site 0 * Site 0);
    Num (-12#1) * Var 22 / (Site 0 * Site 0 * Site 0 * Site 0) + Num (4#1) / (Site 0 * Site 0 * Site 0);
    Num (-12#1) * Var 22 / (Site 0 * Site 0 * Site 0 * Site 0) + Num (4#1) / (Site 0 * Site 0 * Site 0)];
    [Num (-12#1) * Var 22 / (Site 0 * Site 0 * Site 0 * Site 0);
    Num (-12#1) * Var 22 / (Site 0 * Site 0 * Site 0 * Site 0);
    Num (-12#1) * Var 22 / (Site 0 * Site 0 * Site 0 * Site 0) + Num (4#1) / (Site 0 * Site 0 * Site 0);
    Num (-12#1) * Var 22 / (Site 0 * Site 0 * Site 0 * Site 0);
    Num (-12#1) * Var 22 / (Site 0 * Site 0 * Site 0 * Site 0);
    Num (-12#1) * Var 22 / (Site 0 * Site 0 * Site 0 * Site 0)];
    [Num (-12#1) * Var 22 / (Site 0 * Site 0 * Site 0 * Site 0);
    Num (-12#1) * Var 22 / (Site 0 * Site 0 * Site 0 * Site 0);
    Num (-12#1) * Var 22 / (Site 0 * Site 0 * Site 0 * Site 0) + Num (4#1) / (Site 0 * Site 0 * Site 0);
    Num (-12#1) * Var 22 / (Site 0 * Site 0 * Site 0 * Site 0);
    Num (-12#1) * Var 22 / (Site 0 * Site 0 * Site 0 * Site 0);
    Num (-12#1) * Var 22 / (Site 0 * Site 0 * Site 0 * Site 0)];
    [Num (-12#1) * Var 22 / (Site 0 * Site 0 * Site 0 * Site 0);
    Num (-12#1) * Var 22 / (Site 0 * Site 0 * Site 0 * Site 0);
    Num (-12#1) * Var 22 / (Site 0 * Site 0 * Site 0 * Site 0) + Num (4#1) / (Site 0 * Site 0 * Site 0);
    Num (-12#1) * Var 22 / (Site 0 * Site 0 * Site 0 * Site 0);
    Num (-12#1) * Var 22 / (Site 0 * Site 0 * Site 0 * Site 0);
    Num (-12#1) * Var 22 / (Site 0 * Site 0 * Site 0 * Site 0)]];
    [[Num (-12#1) * Var 22 / (Site 0 * Site 0 * Site 0 * Site 0);
    Num (-12#1) * Var 22 / (Site 0 * Site 0 * Site 0 * Site 0);
    Num (-12#1) * Var 22 / (Site 0 * Site 0 * Site 0 * Site 0) + Num (4#1) / (Site 0 * Site 0 * Site 0);
    Num (-12#1) * Var 22 / (Site 0 * Site 0 * Site 0 * Site 0);
    Num (-12#1) * Var 22 / (Site 0 * Site 0 * Site 0 * Site 0);
    Num (-12#1) * Var 22 / (Site 0 * Site 0 * Site 0 * Site 0)];
    [Num (-12#1) * Var 22 / (Site 0 * Site 0 * Site 0 * Site 0);
    Num (-12#1) * Var 22 / (Site 0 * Site 0 * Site 0 * Site 0);
    Num (-12#1) * Var 22 / (Site 0 * Site 0 * Site 0 * Site 0) + Num (4#1) / (Site 0 * Site 0 * Site 0);
    Num (-12#1) * Var 22 / (Site 0 * Site 0 * Site 0 * Site 0);
    Num (-12#1) * Var 22 / (Site 0 * Site 0 * Site 0 * Site 0);
    Num (-12#1) * Var 22 / (Site 0 * Site 0 * Site 0 * Site 0)];
    [Num (-12#1) * Var 22 / (Site 0 * Site 0 * Site 0 * Site 0) + Num (4#1) / (Site 0 * Site 0 * Site 0);
    Num (-12#1) * Var 22 / (Site 0 * Site 0 * Site 0 * Site 0) + Num (4#1) / (Site 0 * Site 0 * Site 0);
    Num (-12#1) * Var 22 / (Site 0 * Site 0 * Site 0 * Site 0) + Num (4#1) / (Site 0 * Site 0 * Site 0) + Num (4#1) / (Site 0 * Site 0 * Site 0);
    Num (-12#1) * Var 22 / (Site 0 * Site 0 * Site 0 * Site 0) + Num (4#1) / (Site 0 * Site 0 * Site 0);
    Num (-12#1) * Var 22 / (Site 0 * Site 0 * Site 0 * Site 0) + Num (4#1) / (Site 0 * Site 0 * Site 0);
    Num (-12#1) * Var 22 / (Site 0 * Site 0 * Site 0 * Site 0) + Num (4#1) / (Site 0 * Site 0 * Site 0)];
    [Num (-12#1) * Var 22 / (Site 0 * Site 0 * Site 0 * Site 0);
    Num (-12#1) * Var 22 / (Site 0 * Site 0 * Site 0 * Site 0);
    Num (-12#1) * Var 22 / (Site 0 * Site 0 * Site 0 * Site 0) + Num (4#1) / (Site 0 * Site 0 * Site 0);
    Num (-12#1) * Var 22 / (Site 0 * Site 0 * Site 0 * Site 0);
    Num (-12#1) * Var 22 / (Site 0 * Site 0 * Site 0 * Site 0);
    Num (-12#1) * Var 22 / (Site 0 * Site 0 * Site 0 * Site 0)];
    [Num (-12#1) * Var 22 / (Site 0 * Site 0 * Site 0 * Site 0);
    Num (-12#1) * Var 22 / (Site 0 * Site 0 * Site 0 * Site 0);
    Num (-12#1) * Var 22 / (Site 0 * Site 0 * Site 0 * Site 0) + Num (4#1) / (Site 0 * Site 0 * Site 0);
    Num (-12#1) * Var 22 / (Site 0 * Site 0 * Site 0 * Site 0);
    Num (-12#1) * Var 22 / (Site 0 * Site 0 * Site 0 * Site 0);
    Num (-12#1) * Var 22 / (Site 0 * Site 0 * Site 0 * Site 0)];
    [Num (-12#1) * Var 22 / (Site 0 * Site 0 * Site 0 * Site 0);
    Num (-12#1) * Var 22 / (Site 0 * Site 0 * Site 0 * Site 0);
    Num (-12#1) * Var 22 / (Site 0 * Site 0 * Site 0 * Site 0) + Num (4#1) / (Site 0 * Site 0 * Site 0);
    Num (-12#1) * Var 22 / (Site 0 * Site 0 * Site 0 * Site 0);
    Num (-12#1) * Var 22 / (Site 0 * Site 0 * Site 0 * Site 0);
    Num (-12#1) * Var 22 / (Site 0 * Site 0 * Site 0 * Site 0)]];
    [[Num (-12#1) * Var 22 / (Site 0 * Site 0 * Site 0 * Site 0) + Num (4#1) / (Site 0 * Site 0 * Site 0);
    Num (-12#1) * Var 22 / (Site 0 * Site 0 * Site 0 * Site 0) + Num (4#1) / (Site 0 * Site 0 * Site 0);
    Num (-12#1) * Var 22 / (Site 0 * Site 0 * Site 0 * Site 0) + Num (4#1) / (Site 0 * Site 0 * Site 0) + Num (4#1) / (Site 0 * Site 0 * Site 0);
    Num (-12#1) * Var 22 / (Site 0 * Site 0 * Site 0 * Site 0) + Num (4#1) / (Site 0 * Site 0 * Site 0);
    Num (-12#1) * Var 22 / (Site 0 * Site 0 * Site 0 * Site 0) + Num (4#1) / (Site 0 * Site 0 * Site 0);
    Num (-12#1) * Var 22 / (Site 0 * Site 0 * Site 0 * Site 0) + Num (4#1) / (Site 0 * Site 0 * Site 0)];
    [Num (-12#1) * Var 22 / (Site 0 * Site 0 * Site 0 * Site 0) + Num (4#1) / (Site 0 * Site 0 * Site 0);
    Num (-12#1) * Var 22 / (Site 0 * Site 0 * Site 0 * Site 0) + Num (4#1) / (Site 0 * Site 0 * Site 0);
    Num (-12#1) * Var 22 / (Site 0 * Site 0 * Site 0 * Site 0) + Num (4#1) / (Site 0 * Site 0 * Site 0) + Num (4#1) / (Site 0 * Site 0 * Site 0);
    Num (-12#1) * Var 22 / (Site 0 * Site 0 * Site 0 * Site 0) + Num (4#1) / (Site 0 * Site 0 * Site 0);
    Num (-12#1) * Var 22 / (Site 0 * Site 0 * Site 0 * Site 0) + Num (4#1) / (Site 0 * Site 0 * Site 0);
    Num (-12#1) * Var 22 / (Site 0 * Site 0 * Site 0 * Site 0) + Num (4#1) / (Site 0 * Site 0 * Site 0)];
    [Num (-12#1) * Var 22 / (Site 0 * Site 0 * Site 0 * Site 0) + Num (4#1) / (Site 0 * Site 0 * Site 0) + Num (4#1) / (Site 0 * Site 0 * Site 0);
    Num (-12#1) * Var 22 / (Site 0 * Site 0 * Site 0 * Site 0) + Num (4#1) / (Site 0 * Site 0 * Site 0) + Num (4#1) / (Site 0 * Site 0 * Site 0);
    Num (-12#1) * Var 22 / (Site 0 * Site 0 * Site 0 * Site 0) + Num (4#1) / (Site 0 * Site 0 * Site 0) + Num (4#1) / (Site 0 * Site 0 * Site 0) + Num (4#1) / (Site 0 * Site 0 * Site 0);
    Num (-12#1) * Var 22 / (Site 0 * Site 0 * Site 0 * Site 0) + Num (4#1) / (Site 0 * Site 0 * Site 0) + Num (4#1) / (Site 0 * Site 0 * Site 0);
    Num (-12#1) * Var 22 / (Site 0 * Site 0 * Site 0 * Site 0) + Num (4#1) / (Site 0 * Site 0 * Site 0) + Num (4#1) / (Site 0 * Site 0 * Site 0);
    Num (-12#1) * Var 22 / (Site 0 * Site 0 * Site 0 * Site 0) + Num (4#1) / (Site 0 * Site 0 * Site 0) + Num (4#1) / (Site 0 * Site 0 * Site 0)];
    [Num (-12#1) * Var 22 / (Site 0 * Site 0 * Site 0 * Site 0) + Num (4#1) / (Site 0 * Site 0 * Site 0);
    Num (-12#1) * Var 22 / (Site 0 * Site 0 * Site 0 * Site 0) + Num (4#1) / (Site 0 * Site 0 * Site 0);
    Num (-12#1) * Var 22 / (Site 0 * Site 0 * Site 0 * Site 0) + Num (4#1) / (Site 0 * Site 0 * Site 0) + Num (4#1) / (Site 0 * Site 0 * Site 0);
    Num (-12#1) * Var 22 / (Site 0 * Site 0 * Site 0 * Site 0) + Num (4#1) / (Site 0 * Site 0 * Site 0);
    Num (-12#1) * Var 22 / (Site 0 * Site 0 * Site 0 * Site 0) + Num (4#1) / (Site 0 * Site 0 * Site 0);
    Num (-12#1) * Var 22 / (Site 0 * Site 0 * Site 0 * Site 0) + Num (4#1) / (Site 0 * Site 0 * Site 0)];
    [Num (-12#1) * Var 22 / (Site 0 * Site 0 * Site 0 * Site 0) + Num (4#1) / (Site 0 * Site 0 * Site 0);
    Num (-12#1) * Var 22 / (Site 0 * Site 0 * Site 0 * Site 0) + Num (4#1) / (Site 0 * Site 0 * Site 0);
    Num (-12#1) * Var 22 / (Site 0 * Site 0 * Site 0 * Site 0) + Num (4#1) / (Site 0 * Site 0 * Site 0) + Num (4#1) / (Site 0 * Site 0 * Site 0);
    Num (-12#1) * Var 22 / (Site 0 * Site 0 * Site 0 * Site 0) + Num (4#1) / (Site 0 * Site 0 * Site 0);
    Num (-12#1) * Var 22 / (Site 0 * Site 0 * Site 0 * Site 0) + Num (4#1) / (Site 0 * Site 0 * Site 0);
    Num (-12#1) * Var 22 / (Site 0 * Site 0 * Site 0 * Site 0) + Num (4#1) / (Site 0 * Site 0 * Site 0)];
    [Num (-12#1) * Var 22 / (Site 0 * Site 0 * Site 0 * Site 0) + Num (4#1) / (Site 0 * Site 0 * Site 0);
    Num (-12#1) * Var 22 / (Site 0 * Site 0 * Site 0 * Site 0) + Num (4#1) / (Site 0 * Site 0 * Site 0);
    Num (-12#1) * Var 22 / (Site 0 * Site 0 * Site 0 * Site 0) + Num (4#1) / (Site 0 * Site 0 * Site 0) + Num (4#1) / (Site 0 * Site 0 * Site 0);
    Num (-12#1) * Var 22 / (Site 0 * Site 0 * Site 0 * Site 0) + Num (4#1) / (Site 0 * Site 0 * Site 0);
    Num (-12#1) * Var 22 / (Site 0 * Site 0 * Site 0 * Site 0) + Num (4#1) / (Site 0 * Site 0 * Site 0);
    Num (-12#1) * Var 22 / (Site 0 * Site 0 * Site 0 * Site 0) + Num (4#1) / (Site 0 * Site 0 * Site 0)]];
    [[Num (-12#1) * Var 22 / (Site 0 * Site 0 * Site 0 * Site 0);
    Num (-12#1) * Var 22 / (Site 0 * Site 0 * Site 0 * Site 0);
    Num (-12#1) * Var 22 / (Site 0 * Site 0 * Site 0 * Site 0) + Num (4#1) / (Site 0 * Site 0 * Site 0);
    Num (-12#1) * Var 22 / (Site 0 * Site 0 * Site 0 * Site 0);
    Num (-12#1) * Var 22 / (Site 0 * Site 0 * Site 0 * Site 0);
    Num (-12#1) * Var 22 / (Site 0 * Site 0 * Site 0 * Site 0)];
    [Num (-12#1) * Var 22 / (Site 0 * Site 0 * Site 0 * Site 0);
    Num (-12#1) * Var 22 / (Site 0 * Site 0 * Site 0 * Site 0);
    Num (-12#1) * Var 22 / (Site 0 * Site 0 * Site 0 * Site 0) + Num (4#1) / (Site 0 * Site 0 * Site 0);
    Num (-12#1) * Var 22 / (Site 0 * Site 0 * Site 0 * Site 0);
    Num (-12#1) * Var 22 / (Site 0 * Site 0 * Site 0 * Site 0);
    Num (-12#1) * Var 22 / (Site 0 * Site 0 * Site 0 * Site 0)];
    [Num (-12#1) * Var 22 / (Site 0 * Site 0 * Site 0 * Site 0) + Num (4#1) / (Site 0 * Site 0 * Site 0);
    Num (-12#1) * Var 22 / (Site 0 * Site 0 * Site 0 * Site 0) + Num (4#1) / (Site 0 * Site 0 * Site 0);
    Num (-12#1) * Var 22 / (Site 0 * Site 0 * Site 0 * Site 0) + Num (4#1) / (Site 0 * Site 0 * Site 0) + Num (4#1) / (Site 0 * Site 0 * Site 0);
    Num (-12#1) * Var 22 / (Site 0 * Site 0 * Site 0 * Site 0) + Num (4#1) / (Site 0 * Site 0 * Site 0);
    Num (-12#1) * Var 22 / (Site 0 * Site 0 * Site 0 * Site 0) + Num (4#1) / (Site 0 * Site 0 * Site 0);
    Num (-12#1) * Var 22 / (Site 0 * Site 0 * Site 0 * Site 0) + Num (4#1) / (Site 0 * Site 0 * Site 0)];
    [Num (-12#1) * Var 22 / (Site 0 * Site 0 * Site 0 * Site 0);
    Num (-12#1) * Var 22 / (Site 0 * Site 0 * Site 0 * Site 0);
    Num (-12#1) * Var 22 / (Site 0 * Site 0 * Site 0 * Site 0) + Num (4#1) / (Site 0 * Site 0 * Site 0);
    Num (-12#1) * Var 22 / (Site 0 * Site 0 * Site 0 * Site 0);
    Num (-12#1) * Var 22 / (Site 0 * Site 0 * Site 0 * Site 0);
    Num (-12#1) * Var 22 / (Site 0 * Site 0 * Site 0 * Site 0)];
    [Num (-12#1) * Var 22 / (Site 0 * Site 0 * Site 0 * Site 0);
    Num (-12#1) * Var 22 / (Site 0 * Site 0 * Site 0 * Site 0);
    Num (-12#1) * Var 22 / (Site 0 * Site 0 * Site 0 * Site 0) + Num (4#1) / (Site 0 * Site 0 * Site 0);
    Num (-12#1) * Var 22 / (Site 0 * Site 0 * Site 0 * Site 0);
    Num (-12#1) * Var 22 / (Site 0 * Site 0 * Site 0 * Site 0);
    Num (-12#1) * Var 22 / (Site 0 * Site 0 * Site 0 * Site 0)];
    [Num (-12#1) * Var 22 / (Site 0 * Site 0 * Site 0 * Site 0);
    Num (-12#1) * Var 22 / (Site 0 * Site 0 * Site 0 * Site 0);
    Num (-12#1) * Var 22 / (Site 0 * Site 0 * Site 0 * Site 0) + Num (4#1) / (Site 0 * Site 0 * Site 0);
    Num (-12#1) * Var 22 / (Site 0 * Site 0 * Site 0 * Site 0);
    Num (-12#1) * Var 22 / (Site 0 * Site 0 * Site 0 * Site 0);
    Num (-12#1) * Var 22 / (Site 0 * Site 0 * Site 0 * Site 0)]];
    [[Num (-12#1) * Var 22 / (Site 0 * Site 0 * Site 0 * Site 0);
    Num (-12#1) * Var 22 / (Site 0 * Site 0 * Site 0 * Site 0);
    Num (-12#1) * Var 22 / (Site 0 * Site 0 * Site 0 * Site 0) + Num (4#1) / (Site 0 * Site 0 * Site 0);
    Num (-12#1) * Var 22 / (Site 0 * Site 0 * Site 0 * Site 0);
    Num (-12#1) * Var 22 / (Site 0 * Site 0 * Site 0 * Site 0);
    Num (-12#1) * Var 22 / (Site 0 * Site 0 * Site 0 * Site 0)];
    [Num (-12#1) * Var 22 / (Site 0 * Site 0 * Site 0 * Site 0);
    Num (-12#1) * Var 22 / (Site 0 * Site 0 * Site 0 * Site 0);
    Num (-12#1) * Var 22 / (Site 0 * Site 0 * Site 0 * Site 0) + Num (4#1) / (Site 0 * Site 0 * Site 0);
    Num (-12#1) * Var 22 / (Site 0 * Site 0 * Site 0 * Site 0);
    Num (-12#1) * Var 22 / (Site 0 * Site 0 * Site 0 * Site 0);
    Num (-12#1) * Var 22 / (Site 0 * Site 0 * Site 0 * Site 0)];
    [Num (-12#1) * Var 22 / (Site 0 * Site 0 * Site 0 * Site 0) + Num (4#1) / (Site 0 * Site 0 * Site 0);
    Num (-12#1) * Var 22 / (Site 0 * Site 0 * Site 0 * Site 0) + Num (4#1) / (Site 0 * Site 0 * Site 0);
    Num (-12#1) * Var 22 / (Site 0 * Site 0 * Site 0 * Site 0) + Num (4#1) / (Site 0 * Site 0 * Site 0) + Num (4#1) / (Site 0 * Site 0 * Site 0);
    Num (-12#1) * Var 22 / (Site 0 * Site 0 * Site 0 * Site 0) + Num (4#1) / (Site 0 * Site 0 * Site 0);
    Num (-12#1) * Var 22 / (Site 0 * Site 0 * Site 0 * Site 0) + Num (4#1) / (Site 0 * Site 0 * Site 0);
    Num (-12#1) * Var 22 / (Site 0 * Site 0 * Site 0 * Site 0) + Num (4#1) / (Site 0 * Site 0 * Site 0)];
    [Num (-12#1) * Var 22 / (Site 0 * Site 0 * Site 0 * Site 0);
    Num (-12#1) * Var 22 / (Site 0 * Site 0 * Site 0 * Site 0);
    Num (-12#1) * Var 22 / (Site 0 * Site 0 * Site 0 * Site 0) + Num (4#1) / (Site 0 * Site 0 * Site 0);
    Num (-12#1) * Var 22 / (Site 0 * Site 0 * Site 0 * Site 0);
    Num (-12#1) * Var 22 / (Site 0 * Site 0 * Site 0 * Site 0);
    Num (-12#1) * Var 22 / (Site 0 * Site 0 * Site 0 * Site 0)];
    [Num (-12#1) * Var 22 / (Site 0 * Site 0 * Site 0 * Site 0);
    Num (-12#1) * Var 22 / (Site 0 * Site 0 * Site 0 * Site 0);
    Num (-12#1) * Var 22 / (Site 0 * Site 0 * Site 0 * Site 0) + Num (4#1) / (Site 0 * Site 0 * Site 0);
    Num (-12#1) * Var 22 / (Site 0 * Site 0 * Site 0 * Site 0);
    Num (-12#1) * Var 22 / (Site 0 * Site 0 * Site 0 * Site 0);
    Num (-12#1) * Var 22 / (Site 0 * Site 0 * Site 0 * Site 0)];
    [Num (-12#1) * Var 22 / (Site 0 * Site 0 * Site 0 * Site 0);
    Num (-12#1) * Var 22 / (Site 0 * Site 0 * Site 0 * Site 0);
    Num (-12#1) * Var 22 / (Site 0 * Site 0 * Site 0 * Site 0) + Num (4#1) / (Site 0 * Site 0 * Site 0);
    Num (-12#1) * Var 22 / (Site 0 * Site 0 * Site 0 * Site 0);
    Num (-12#1) * Var 22 / (Site 0 * Site 0 * Site 0 * Site 0);
    Num (-12#1) * Var 22 / (Site 0 * Site 0 * Site 0 * Site 0)]];
    [[Num (-12#1) * Var 22 / (Site 0 * Site 0 * Site 0 * Site 0);
    Num (-12#1) * Var 22 / (Site 0 * Site 0 * Site 0 * Site 0);
    Num (-12#1) * Var 22 / (Site 0 * Site 0 * Site 0 * Site 0) + Num (4#1) / (Site 0 * Site 0 * Site 0);
    Num (-12#1) * Var 22 / (Site 0 * Site 0 * Site 0 * Site 0);
    Num (-12#1) * Var 22 / (Site 0 * Site 0 * Site 0 * Site 0);
    Num (-12#1) * Var 22 / (Site 0 * Site 0 * Site 0 * Site 0)];
    [Num (-12#1) * Var 22 / (Site 0 * Site 0 * Site 0 * Site 0);
    Num (-12#1) * Var 22 / (Site 0 * Site 0 * Site 0 * Site 0);
    Num (-12#1) * Var 22 / (Site 0 * Site 0 * Site 0 * Site 0) + Num (4#1) / (Site 0 * Site 0 * Site 0);
    Num (-12#1) * Var 22 / (Site 0 * Site 0 * Site 0 * Site 0);
    Num (-12#1) * Var 22 / (Site 0 * Site 0 * Site 0 * Site 0);
    Num (-12#1) * Var 22 / (Site 0 * Site 0 * Site 0 * Site 0)];
    [Num (-12#1) * Var 22 / (Site 0 * Site 0 * Site 0 * Site 0) + Num (4#1) / (Site 0 * Site 0 * Site 0);
    Num (-12#1) * Var 22 / (Site 0 * Site 0 * Site 0 * Site 0) + Num (4#1) / (Site 0 * Site 0 * Site 0);
    Num (-12#1) * Var 22 / (Site 0 * Site 0 * Site 0 * Site 0) + Num (4#1) / (Site 0 * Site 0 * Site 0) + Num (4#1) / (Site 0 * Site 0 * Site 0);
    Num (-12#1) * Var 22 / (Site 0 * Site 0 * Site 0 * Site 0) + Num (4#1) / (Site 0 * Site 0 * Site 0);
    Num (-12#1) * Var 22 / (Site 0 * Site 0 * Site 0 * Site 0) + Num (4#1) / (Site 0 * Site 0 * Site 0);
    Num (-12#1) * Var 22 / (Site 0 * Site 0 * Site 0 * Site 0) + Num (4#1) / (Site 0 * Site 0 * Site 0)];
    [Num (-12#1) * Var 22 / (Site 0 * Site 0 * Site 0 * Site 0);
    Num (-12#1) * Var 22 / (Site 0 * Site 0 * Site 0 * Site 0);
    Num (-12#1) * Var 22 / (Site 0 * Site 0 * Site 0 * Site 0) + Num (4#1) / (Site 0 * Site 0 * Site 0);
    Num (-12#1) * Var 22 / (Site 0 * Site 0 * Site 0 * Site 0);
    Num (-12#1) * Var 22 / (Site 0 * Site 0 * Site 0 * Site 0);
    Num (-12#1) * Var 22 / (Site 0 * Site 0 * Site 0 * Site 0)];
    [Num (-12#1) * Var 22 / (Site 0 * Site 0 * Site 0 * Site 0);
    Num (-12#1) * Var 22 / (Site 0 * Site 0 * Site 0 * Site 0);
    Num (-12#1) * Var 22 / (Site 0 * Site 0 * Site 0 * Site 0) + Num (4#1) / (Site 0 * Site 0 * Site 0);
    Num (-12#1) * Var 22 / (Site 0 * Site 0 * Site 0 * Site 0);
    Num (-12#1) * Var 22 / (Site 0 * Site 0 * Site 0 * Site 0);
    Num (-12#1) * Var 22 / (Site 0 * Site 0 * Site 0 * Site 0)];
    [Num (-12#1) * Var 22 / (Site 0 * Site 0 * Site 0 * Site 0);
    Num (-12#1) * Var 22 / (Site 0 * Site 0 * Site 0 * Site 0);
    Num (-12#1) * Var 22 / (Site 0 * Site 0 * Site 0 * Site 0) + Num (4#1) / (Site 0 * Site 0 * Site 0);
    Num (-12#1) * Var 22 / (Site 0 * Site 0 * Site 0 * Site 0);
    Num (-12#1) * Var 22 / (Site 0 * Site 0 * Site 0 * Site 0);
    Num (-12#1) * Var 22 / (Site 0 * Site 0 * Site 0 * Site 0)]]];
    [[[Num (-12#1) * Var 23 / (Site 0 * Site 0 * Site 0 * Site 0);
    Num (-12#1) * Var 23 / (Site 0 * Site 0 * Site 0 * Site 0);
    Num (-12#1) * Var 23 / (Site 0 * Site 0 * Site 0 * Site 0);
    Num (-12#1) * Var 23 / (Site 0 * Site 0 * Site 0 * Site 0) + Num (4#1) / (Site 0 * Site 0 * Site 0);
    Num (-12#1) * Var 23 / (Site 0 * Site 0 * Site 0 * Site 0);
    Num (-12#1) * Var 23 / (Site 0 * Site 0 * Site 0 * Site 0)];
    [Num (-12#1) * Var 23 / (Site 0 * Site 0 * Site 0 * Site 0);
    Num (-12#1) * Var 23 / (Site 0 * Site 0 * Site 0 * Site 0);
    Num (-12#1) * Var 23 / (Site 0 * Site 0 * Site 0 * Site 0);
    Num (-12#1) * Var 23 / (Site 0 * Site 0 * Site 0 * Site 0) + Num (4#1) / (Site 0 * Site 0 * Site 0);
    Num (-12#1) * Var 23 / (Site 0 * Site 0 * Site 0 * Site 0);
    Num (-12#1) * Var 23 / (Site 0 * Site 0 * Site 0 * Site 0)];
    [Num (-12#1) * Var 23 / (Site 0 * Site 0 * Site 0 * Site 0);
    Num (-12#1) * Var 23 / (Site 0 * Site 0 * Site 0 * Site 0);
    Num (-12#1) * Var 23 / (Site 0 * Site 0 * Site 0 * Site 0);
    Num (-12#1) * Var 23 / (Site 0 * Site 0 * Site 0 * Site 0) + Num (4#1) / (Site 0 * Site 0 * Site 0);
    Num (-12#1) * Var 23 / (Site 0 * Site 0 * Site 0 * Site 0);
    Num (-12#1) * Var 23 / (Site 0 * Site 0 * Site 0 * Site 0)];
    [Num (-12#1) * Var 23 / (Site 0 * Site 0 * Site 0 * Site 0) + Num (4#1) / (Site 0 * Site 0 * Site 0);
    Num (-12#1) * Var 23 / (Site 0 * Site 0 * Site 0 * Site 0) + Num (4#1) / (Site 0 * Site 0 * Site 0);
    Num (-12#1) * Var 23 / (Site 0 * Site 0 * Site 0 * Site 0) + Num (4#1) / (Site 0 * Site 0 * Site 0);
    Num (-12#1) * Var 23 / (Site 0 * Site 0 * Site 0 * Site 0) + Num (4#1) / (Site 0 * Site 0 * Site 0) + Num (4#1) / (Site 0 * Site 0 * Site 0);
    Num (-12#1) * Var 23 / (Site 0 * Site 0 * Site 0 * Site 0) + Num (4#1) / (Site 0 * Site 0 * Site 0);
    Num (-12#1) * Var 23 / (Site 0 * Site 0 * Site 0 * Site 0) + Num (4#1) / (Site 0 * Site 0 * Site 0)];
    [Num (-12#1) * Var 23 / (Site 0 * Site 0 * Site 0 * Site 0);
    Num (-12#1) * Var 23 / (Site 0 * Site 0 * Site 0 * Site 0);
    Num (-12#1) * Var 23 / (Site 0 * Site 0 * Site 0 * Site 0);
    Num (-12#1) * Var 23 / (Site 0 * Site 0 * Site 0 * Site 0) + Num (4#1) / (Site 0 * Site 0 * Site 0);
    Num (-12#1) * Var 23 / (Site 0 * Site 0 * Site 0 * Site 0);
    Num (-12#1) * Var 23 / (Site 0 * Site 0 * Site 0 * Site 0)];
    [Num (-12#1) * Var 23 / (Site 0 * Site 0 * Site 0 * Site 0);
    Num (-12#1) * Var 23 / (Site 0 * Site 0 * Site 0 * Site 0);
    Num (-12#1) * Var 23 / (Site 0 * Site 0 * Site 0 * Site 0);
    Num (-12#1) * Var 23 / (Site 0 * Site 0 * Site 0 * Site 0) + Num (4#1) / (Site 0 * Site 0 * Site 0);
    Num (-12#1) * Var 23 / (Site 0 * Site 0 * Site 0 * Site 0);
    Num (-12#1) * Var 23 / (Site 0 * Site 0 * Site 0 * Site 0)]];
    [[Num (-12#1) * Var 23 / (Site 0 * Site 0 * Site 0 * Site 0);
    Num (-12#1) * Var 23 / (Site 0 * Site 0 * Site 0 * Site 0);
    Num (-12#1) * Var 23 / (Site 0 * Site 0 * Site 0 * Site 0);
    Num (-12#1) * Var 23 / (Site 0 * Site 0 * Site 0 * Site 0) + Num (4#1) / (Site 0 * Site 0 * Site 0);
    Num (-12#1) * Var 23 / (Site 0 * Site 0 * Site 0 * Site 0);
    Num (-12#1) * Var 23 / (Site 0 * Site 0 * Site 0 * Site 0)];
    [Num (-12#1) * Var 23 / (Site 0 * Site 0 * Site 0 * Site 0);
    Num (-12#1) * Var 23 / (Site 0 * Site 0 * Site 0 * Site 0);
    Num (-12#1) * Var 23 / (Site 0 * Site 0 * Site 0 * Site 0);
    Num (-12#1) * Var 23 / (Site 0 * Site 0 * Site 0 * Site 0) + Num (4#1) / (Site 0 * Site 0 * Site 0);
    Num (-12#1) * Var 23 / (Site 0 * Site 0 * Site 0 * Site 0);
    Num (-12#1) * Var 23 / (Site 0 * Site 0 * Site 0 * Site 0)];
    [Num (-12#1) * Var 23 / (Site 0 * Site 0 * Site 0 * Site 0);
    Num (-12#1) * Var 23 / (Site 0 * Site 0 * Site 0 * Site 0);
    Num (-12#1) * Var 23 / (Site 0 * Site 0 * Site 0 * Site 0);
    Num (-12#1) * Var 23 / (Site 0 * Site 0 * Site 0 * Site 0) + Num (4#1) / (Site 0 * Site 0 * Site 0);
    Num (-12#1) * Var 23 / (Site 0 * Site 0 * Site 0 * Site 0);
    Num (-12#1) * Var 23 / (Site 0 * Site 0 * Site 0 * Site 0)];
    [Num (-12#1) * Var 23 / (Site 0 * Site 0 * Site 0 * Site 0) + Num (4#1) / (Site 0 * Site 0 * Site 0);
    Num (-12#1) * Var 23 / (Site 0 * Site 0 * Site 0 * Site 0) + Num (4#1) / (Site 0 * Site 0 * Site 0);
    Num (-12#1) * Var 23 / (Site 0 * Site 0 * Site 0 * Site 0) + Num (4#1) / (Site 0 * Site 0 * Site 0);
    Num (-12#1) * Var 23 / (Site 0 * Site 0 * Site 0 * Site 0) + Num (4#1) / (Site 0 * Site 0 * Site 0) + Num (4#1) / (Site 0 * Site 0 * Site 0);
    Num (-12#1) * Var 23 / (Site 0 * Site 0 * Site 0 * Site 0) + Num (4#1) / (Site 0 * Site 0 * Site 0);
    Num (-12#1) * Var 23 / (Site 0 * Site 0 * Site 0 * Site 0) + Num (4#1) / (Site 0 * Site 0 * Site 0)];
    [Num (-12#1) * Var 23 / (Site 0 * Site 0 * Site 0 * Site 0);
    Num (-12#1) * Var 23 / (Site 0 * Site 0 * Site 0 * Site 0);
    Num (-12#1) * Var 23 / (Site 0 * Site 0 * Site 0 * Site 0);
    Num (-12#1) * Var 23 / (Site 0 * Site 0 * Site 0 * Site 0) + Num (4#1) / (Site 0 * Site 0 * Site 0);
    Num (-12#1) * Var 23 / (Site 0 * Site 0 * Site 0 * Site 0);
    Num (-12#1) * Var 23 / (Site 0 * Site 0 * Site 0 * Site 0)];
    [Num (-12#1) * Var 23 / (Site 0 * Site 0 * Site 0 * Site 0);
    Num (-12#1) * Var 23 / (Site 0 * Site 0 * Site 0 * Site 0);
    Num (-12#1) * Var 23 / (Site 0 * Site 0 * Site 0 * Site 0);
    Num (-12#1) * Var 23 / (Site 0 * Site 0 * Site 0 * Site 0) + Num (4#1) / (Site 0 * Site 0 * Site 0);
    Num (-12#1) * Var 23 / (Site 0 * Site 0 * Site 0 * Site 0);
    Num (-12#1) * Var 23 / (Site 0 * Site 0 * Site 0 * Site 0)]];
    [[Num (-12#1) * Var 23 / (Site 0 * Site 0 * Site 0 * Site 0);
    Num (-12#1) * Var 23 / (Site 0 * Site 0 * Site 0 * Site 0);
    Num (-12#1) * Var 23 / (Site 0 * Site 0 * Site 0 * Site 0);
    Num (-12#1) * Var 23 / (Site 0 * Site 0 * Site 0 * Site 0) + Num (4#1) / (Site 0 * Site 0 * Site 0);
    Num (-12#1) * Var 23 / (Site 0 * Site 0 * Site 0 * Site 0);
    Num (-12#1) * Var 23 / (Site 0 * Site 0 * Site 0 * Site 0)];
    [Num (-12#1) * Var 23 / (Site 0 * Site 0 * Site 0 * Site 0);
    Num (-12#1) * Var 23 / (Site 0 * Site 0 * Site 0 * Site 0);
    Num (-12#1) * Var 23 / (Site 0 * Site 0 * Site 0 * Site 0);
    Num (-12#1) * Var 23 / (Site 0 * Site 0 * Site 0 * Site 0) + Num (4#1) / (Site 0 * Site 0 * Site 0);
    Num (-12#1) * Var 23 / (Site 0 * Site 0 * Site 0 * Site 0);
    Num (-12#1) * Var 23 / (Site 0 * Site 0 * Site 0 * Site 0)];
    [Num (-12#1) * Var 23 / (Site 0 * Site 0 * Site 0 * Site 0);
    Num (-12#1) * Var 23 / (Site 0 * Site 0 * Site 0 * Site 0);
    Num (-12#1) * Var 23 / (Site 0 * Site 0 * Site 0 * Site 0);
    Num (-12#1) * Var 23 / (Site 0 * Site 0 * Site 0 * Site 0) + Num (4#1) / (Site 0 * Site 0 * Site 0);
    Num (-12#1) * Var 23 / (Site 0 * Site 0 * Site 0 * Site 0);
    Num (-12#1) * Var 23 / (Site 0 * Site 0 * Site 0 * Site 0)];
    [Num (-12#1) * Var 23 / (Site 0 * Site 0 * Site 0 * Site 0) + Num (4#1) / (Site 0 * Site 0 * Site 0);
    Num (-12#1) * Var 23 / (Site 0 * Site 0 * Site 0 * Site 0) + Num (4#1) / (Site 0 * Site 0 * Site 0);
    Num (-12#1) * Var 23 / (Site 0 * Site 0 * Site 0 * Site 0) + Num (4#1) / (Site 0 * Site 0 * Site 0);
    Num (-12#1) * Var 23 / (Site 0 * Site 0 * Site 0 * Site 0) + Num (4#1) / (Site 0 * Site 0 * Site 0) + Num (4#1) / (Site 0 * Site 0 * Site 0);
    Num (-12#1) * Var 23 / (Site 0 * Site 0 * Site 0 * Site 0) + Num (4#1) / (Site 0 * Site 0 * Site 0);
    Num (-12#1) * Var 23 / (Site 0 * Site 0 * Site 0 * Site 0) + Num (4#1) / (Site 0 * Site 0 * Site 0)];
    [Num (-12#1) * Var 23 / (Site 0 * Site 0 * Site 0 * Site 0);
    Num (-12#1) * Var 23 / (Site 0 * Site 0 * Site 0 * Site 0);
    Num (-12#1) * Var 23 / (Site 0 * Site 0 * Site 0 * Site 0);
    Num (-12#1) * Var 23 / (Site 0 * Site 0 * Site 0 * Site 0) + Num (4#1) / (Site 0 * Site 0 * Site 0);
    Num (-12#1) * Var 23 / (Site 0 * Site 0 * Site 0 * Site 0);
    Num (-12#1) * Var 23 / (Site 0 * Site 0 * Site 0 * Site 0)];
    [Num (-12#1) * Var 23 / (Site 0 * Site 0 * Site 0 * Site 0);
    Num (-12#1) * Var 23 / (Site 0 * Site 0 * Site 0 * Site 0);
    Num (-12#1) * Var 23 / (Site 0 * Site 0 * Site 0 * Site 0);
    Num (-12#1) * Var 23 / (Site 0 * Site 0 * Site 0 * Site 0) + Num (4#1) / (Site 0 * Site 0 * Site 0);
    Num (-12#1) * Var 23 / (Site 0 * Site 0 * Site 0 * Site 0);
    Num (-12#1) * Var 23 / (Site 0 * Site 0 * Site 0 * Site 0)]];
    [[Num (-12#1) * Var 23 / (Site 0 * Site 0 * Site 0 * Site 0) + Num (4#1) / (Site 0 * Site 0 * Site 0);
    Num (-12#1) * Var 23 / (Site 0 * Site 0 * Site 0 * Site 0) + Num (4#1) / (Site 0 * Site 0 * Site 0);
    Num (-12#1) * Var 23 / (Site 0 * Site 0 * Site 0 * Site 0) + Num (4#1) / (Site 0 * Site 0 * Site 0);
    Num (-12#1) * Var 23 / (Site 0 * Site 0 * Site 0 * Site 0) + Num (4#1) / (Site 0 * Site 0 * Site 0) + Num (4#1) / (Site 0 * Site 0 * Site 0);
    Num (-12#1) * Var 23 / (Site 0 * Site 0 * Site 0 * Site 0) + Num (4#1) / (Site 0 * Site 0 * Site 0);
    Num (-12#1) * Var 23 / (Site 0 * Site 0 * Site 0 * Site 0) + Num (4#1) / (Site 0 * Site 0 * Site 0)];
    [Num (-12#1) * Var 23 / (Site 0 * Site 0 * Site 0 * Site 0) + Num (4#1) / (Site 0 * Site 0 * Site 0);
    Num (-12#1) * Var 23 / (Site 0 * Site 0 * Site 0 * Site 0) + Num (4#1) / (Site 0 * Site 0 * Site 0);
    Num (-12#1) * Var 23 / (Site 0 * Site 0 * Site 0 * Site 0) + Num (4#1) / (Site 0 * Site 0 * Site 0);
    Num (-12#1) * Var 23 / (Site 0 * Site 0 * Site 0 * Site 0) + Num (4#1) / (Site 0 * Site 0 * Site 0) + Num (4#1) / (Site 0 * Site 0 * Site 0);
    Num (-12#1) * Var 23 / (Site 0 * Site 0 * Site 0 * Site 0) + Num (4#1) / (Site 0 * Site 0 * Site 0);
    Num (-12#1) * Var 23 / (Site 0 * Site 0 * Site 0 * Site 0) + Num (4#1) / (Site 0 * Site 0 * Site 0)];
    [Num (-12#1) * Var 23 / (Site 0 * Site 0 * Site 0 * Site 0) + Num (4#1) / (Site 0 * Site 0 * Site 0);
    Num (-12#1) * Var 23 / (Site 0 * Site 0 * Site 0 * Site 0) + Num (4#1) / (Site 0 * Site 0 * Site 0);
    Num (-12#1) * Var 23 / (Site 0 * Site 0 * Site 0 * Site 0) + Num (4#1) / (Site 0 * Site 0 * Site 0);
    Num (-12#1) * Var 23 / (Site 0 * Site 0 * Site 0 * Site 0) + Num (4#1) / (Site 0 * Site 0 * Site 0) + Num (4#1) / (Site 0 * Site 0 * Site 0);
    Num (-12#1) * Var 23 / (Site 0 * Site 0 * Site 0 * Site 0) + Num (4#1) / (Site 0 * Site 0 * Site 0);
    Num (-12#1) * Var 23 / (Site 0 * Site 0 * Site 0 * Site 0) + Num (4#1) / (Site 0 * Site 0 * Site 0)];
    [Num (-12#1) * Var 23 / (Site 0 * Site 0 * Site 0 * Site 0) + Num (4#1) / (Site 0 * Site 0 * Site 0) + Num (4#1) / (Site 0 * Site 0 * Site 0);
    Num (-12#1) * Var 23 / (Site 0 * Site 0 * Site 0 * Site 0) + Num (4#1) / (Site 0 * Site 0 * Site 0) + Num (4#1) / (Site 0 * Site 0 * Site 0);
    Num (-12#1) * Var 23 / (Site 0 * Site 0 * Site 0 * Site 0) + Num (4#1) / (Site 0 * Site 0 * Site 0) + Num (4#1) / (Site 0 * Site 0 * Site 0);
    Num (-12#1) * Var 23 / (Site 0 * Site 0 * Site 0 * Site 0) + Num (4#1) / (Site 0 * Site 0 * Site 0) + Num (4#1) / (Site 0 * Site 0 * Site 0) + Num (4#1) / (Site 0 * Site 0 * Site 0);
    Num (-12#1) * Var 23 / (Site 0 * Site 0 * Site 0 * Site 0) + Num (4#1) / (Site 0 * Site 0 * Site 0) + Num (4#1) / (Site 0 * Site 0 * Site 0);
    Num (-12#1) * Var 23 / (Site 0 * Site 0 * Site 0 * Site 0) + Num (4#1) / (Site 0 * Site 0 * Site 0) + Num (4#1) / (Site 0 * Site 0 * Site 0)];
    [Num (-12#1) * Var 23 / (Site 0 * Site 0 * Site 0 * Site 0) + Num (4#1) / (Site 0 * Site 0 * Site 0);
    Num (-12#1) * Var 23 / (Site 0 * Site 0 * Site 0 * Site 0) + Num (4#1) / (Site 0 * Site 0 * Site 0);
    Num (-12#1) * Var 23 / (Site 0 * Site 0 * Site 0 * Site 0) + Num (4#1) / (Site 0 * Site 0 * Site 0);
    Num (-12#1) * Var 23 / (Site 0 * Site 0 * Site 0 * Site 0) + Num (4#1) / (Site 0 * Site 0 * Site 0) + Num (4#1) / (Site 0 * Site 0 * Site 0);
    Num (-12#1) * Var 23 / (Site 0 * Site 0 * Site 0 * Site 0) + Num (4#1) / (Site 0 * Site 0 * Site 0);
    Num (-12#1) * Var 23 / (Site 0 * Site 0 * Site 0 * Site 0) + Num (4#1) / (Site 0 * Site 0 * Site 0)];
    [Num (-12#1) * Var 23 / (Site 0 * Site 0 * Site 0 * Site 0) + Num (4#1) / (Site 0 * Site 0 * Site 0);
    Num (-12#1) * Var 23 / (Site 0 * Site 0 * Site 0 * Site 0) + Num (4#1) / (Site 0 * Site 0 * Site 0);
    Num (-12#1) * Var 23 / (Site 0 * Site 0 * Site 0 * Site 0) + Num (4#1) / (Site 0 * Site 0 * Site 0);
    Num (-12#1) * Var 23 / (Site 0 * Site 0 * Site 0 * Site 0) + Num (4#1) / (Site 0 * Site 0 * Site 0) + Num (4#1) / (Site 0 * Site 0 * Site 0);
    Num (-12#1) * Var 23 / (Site 0 * Site 0 * Site 0 * Site 0) + Num (4#1) / (Site 0 * Site 0 * Site 0);
    Num (-12#1) * Var 23 / (Site 0 * Site 0 * Site 0 * Site 0) + Num (4#1) / (Site 0 * Site 0 * Site 0)]];
    [[Num (-12#1) * Var 23 / (Site 0 * Site 0 * Site 0 * Site 0);
    Num (-12#1) * Var 23 / (Site 0 * Site 0 * Site 0 * Site 0);
    Num (-12#1) * Var 23 / (Site 0 * Site 0 * Site 0 * Site 0);
    Num (-12#1) * Var 23 / (Site 0 * Site 0 * Site 0 * Site 0) + Num (4#1) / (Site 0 * Site 0 * Site 0);
    Num (-12#1) * Var 23 / (Site 0 * Site 0 * Site 0 * Site 0);
    Num (-12#1) * Var 23 / (Site 0 * Site 0 * Site 0 * Site 0)];
    [Num (-12#1) * Var 23 / (Site 0 * Site 0 * Site 0 * Site 0);
    Num (-12#1) * Var 23 / (Site 0 * Site 0 * Site 0 * Site 0);
    Num (-12#1) * Var 23 / (Site 0 * Site 0 * Site 0 * Site 0);
    Num (-12#1) * Var 23 / (Site 0 * Site 0 * Site 0 * Site 0) + Num (4#1) / (Site 0 * Site 0 * Site 0);
    Num (-12#1) * Var 23 / (Site 0 * Site 0 * Site 0 * Site 0);
    Num (-12#1) * Var 23 / (Site 0 * Site 0 * Site 0 * Site 0)];
    [Num (-12#1) * Var 23 / (Site 0 * Site 0 * Site 0 * Site 0);
    Num (-12#1) * Var 23 / (Site 0 * Site 0 * Site 0 * Site 0);
    Num (-12#1) * Var 23 / (Site 0 * Site 0 * Site 0 * Site 0);
    Num (-12#1) * Var 23 / (Site 0 * Site 0 * Site 0 * Site 0) + Num (4#1) / (Site 0 * Site 0 * Site 0);
    Num (-12#1) * Var 23 / (Site 0 * Site 0 * Site 0 * Site 0);
    Num (-12#1) * Var 23 / (Site 0 * Site 0 * Site 0 * Site 0)];
    [Num (-12#1) * Var 23 / (Site 0 * Site 0 * Site 0 * Site 0) + Num (4#1) / (Site 0 * Site 0 * Site 0);
    Num (-12#1) * Var 23 / (Site 0 * Site 0 * Site 0 * Site 0) + Num (4#1) / (Site 0 * Site 0 * Site 0);
    Num (-12#1) * Var 23 / (Site 0 * Site 0 * Site 0 * Site 0) + Num (4#1) / (Site 0 * Site 0 * Site 0);
    Num (-12#1) * Var 23 / (Site 0 * Site 0 * Site 0 * Site 0) + Num (4#1) / (Site 0 * Site 0 * Site 0) + Num (4#1) / (Site 0 * Site 0 * Site 0);
    Num (-12#1) * Var 23 / (Site 0 * Site 0 * Site 0 * Site 0) + Num (4#1) / (Site 0 * Site 0 * Site 0);
    Num (-12#1) * Var 23 / (Site 0 * Site 0 * Site 0 * Site 0) + Num (4#1) / (Site 0 * Site 0 * Site 0)];
    [Num (-12#1) * Var 23 / (Site 0 * Site 0 * Site 0 * Site 0);
    Num (-12#1) * Var 23 / (Site 0 * Site 0 * Site 0 * Site 0);
    Num (-12#1) * Var 23 / (Site 0 * Site 0 * Site 0 * Site 0);
    Num (-12#1) * Var 23 / (Site 0 * Site 0 * Site 0 * Site 0) + Num (4#1) / (Site 0 * Site 0 * Site 0);
    Num (-12#1) * Var 23 / (Site 0 * Site 0 * Site 0 * Site 0);
    Num (-12#1) * Var 23 / (Site 0 * Site 0 * Site 0 * Site 0)];
    [Num (-12#1) * Var 23 / (Site 0 * Site 0 * Site 0 * Site 0);
    Num (-12#1) * Var 23 / (Site 0 * Site 0 * Site 0 * Site 0);
    Num (-12#1) * Var 23 / (Site 0 * Site 0 * Site 0 * Site 0);
    Num (-12#1) * Var 23 / (Site 0 * Site 0 * Site 0 * Site 0) + Num (4#1) / (Site 0 * Site 0 * Site 0);
    Num (-12#1) * Var 23 / (Site 0 * Site 0 * Site 0 * Site 0);
    Num (-12#1) * Var 23 / (Site 0 * Site 0 * Site 0 * Site 0)]];
    [[Num (-12#1) * Var 23 / (Site 0 * Site 0 * Site 0 * Site 0);
    Num (-12#1) * Var 23 / (Site 0 * Site 0 * Site 0 * Site 0);
    Num (-12#1) * Var 23 / (Site 0 * Site 0 * Site 0 * Site 0);
    Num (-12#1) * Var 23 / (Site 0 * Site 0 * Site 0 * Site 0) + Num (4#1) / (Site 0 * Site 0 * Site 0);
    Num (-12#1) * Var 23 / (Site 0 * Site 0 * Site 0 * Site 0);
    Num (-12#1) * Var 23 / (Site 0 * Site 0 * Site 0 * Site 0)];
    [Num (-12#1) * Var 23 / (Site 0 * Site 0 * Site 0 * Site 0);
    Num (-12#1) * Var 23 / (Site 0 * Site 0 * Site 0 * Site 0);
    Num (-12#1) * Var 23 / (Site 0 * Site 0 * Site 0 * Site 0);
    Num (-12#1) * Var 23 / (Site 0 * Site 0 * Site 0 * Site 0) + Num (4#1) / (Site 0 * Site 0 * Site 0);
    Num (-12#1) * Var 23 / (Site 0 * Site 0 * Site 0 * Site 0);
    Num (-12#1) * Var 23 / (Site 0 * Site 0 * Site 0 * Site 0)];
    [Num (-12#1) * Var 23 / (Site 0 * Site 0 * Site 0 * Site 0);
    Num (-12#1) * Var 23 / (Site 0 * Site 0 * Site 0 * Site 0);
    Num (-12#1) * Var 23 / (Site 0 * Site 0 * Site 0 * Site 0);
    Num (-12#1) * Var 23 / (Site 0 * Site 0 * Site 0 * Site 0) + Num (4#1) / (Site 0 * Site 0 * Site 0);
    Num (-12#1) * Var 23 / (Site 0 * Site 0 * Site 0 * Site 0);
    Num (-12#1) * Var 23 / (Site 0 * Site 0 * Site 0 * Site 0)];
    [Num (-12#1) * Var 23 / (Site 0 * Site 0 * Site 0 * Site 0) + Num (4#1) / (Site 0 * Site 0 * Site 0);
    Num (-12#1) * Var 23 / (Site 0 * Site 0 * Site 0 * Site 0) + Num (4#1) / (Site 0 * Site 0 * Site 0);
    Num (-12#1) * Var 23 / (Site 0 * Site 0 * Site 0 * Site 0) + Num (4#1) / (Site 0 * Site 0 * Site 0);
    Num (-12#1) * Var 23 / (Site 0 * Site 0 * Site 0 * Site 0) + Num (4#1) / (Site 0 * Site 0 * Site 0) + Num (4#1) / (Site 0 * Site 0 * Site 0);
    Num (-12#1) * Var 23 / (Site 0 * Site 0 * Site 0 * Site 0) + Num (4#1) / (Site 0 * Site 0 * Site 0);
    Num (-12#1) * Var 23 / (Site 0 * Site 0 * Site 0 * Site 0) + Num (4#1) / (Site 0 * Site 0 * Site 0)];
    [Num (-12#1) * Var 23 / (Site 0 * Site 0 * Site 0 * Site 0);
    Num (-12#1) * Var 23 / (Site 0 * Site 0 * Site 0 * Site 0);
    Num (-12#1) * Var 23 / (Site 0 * Site 0 * Site 0 * Site 0);
    Num (-12#1) * Var 23 / (Site 0 * Site 0 * Site 0 * Site 0) + Num (4#1) / (Site 0 * Site 0 * Site 0);
    Num (-12#1) * Var 23 / (Site 0 * Site 0 * Site 0 * Site 0);
    Num (-12#1) * Var 23 / (Site 0 * Site 0 * Site 0 * Site 0)];
    [Num (-12#1) * Var 23 / (Site 0 * Site 0 * Site 0 * Site 0);
    Num (-12#1) * Var 23 / (Site 0 * Site 0 * Site 0 * Site 0);
    Num (-12#1) * Var 23 / (Site 0 * Site 0 * Site 0 * Site 0);
    Num (-12#1) * Var 23 / (Site 0 * Site 0 * Site 0 * Site 0) + Num (4#1) / (Site 0 * Site 0 * Site 0);
    Num (-12#1) * Var 23 / (Site 0 * Site 0 * Site 0 * Site 0);
    Num (-12#1) * Var 23 / (Site 0 * Site 0 * Site 0 * Site 0)]]];
    [[[Num (-12#1) * Var 24 / (Site 0 * Site 0 * Site 0 * Site 0) / Num (2#1);
    Num (-12#1) * Var 24 / (Site 0 * Site 0 * Site 0 * Site 0) / Num (2#1);
    Num (-12#1) * Var 24 / (Site 0 * Site 0 * Site 0 * Site 0) / Num (2#1);
    Num (-12#1) * Var 24 / (Site 0 * Site 0 * Site 0 * Site 0) / Num (2#1);
    (Num (-12#1) * Var 24 / (Site 0 * Site 0 * Site 0 * Site 0) + Num (4#1) / (Site 0 * Site 0 * Site 0)) / Num (2#1);
    Num (-12#1) * Var 24 / (Site 0 * Site 0 * Site 0 * Site 0) / Num (2#1)];
    [Num (-12#1) * Var 24 / (Site 0 * Site 0 * Site 0 * Site 0) / Num (2#1);
    Num (-12#1) * Var 24 / (Site 0 * Site 0 * Site 0 * Site 0) / Num (2#1);
    Num (-12#1) * Var 24 / (Site 0 * Site 0 * Site 0 * Site 0) / Num (2#1);
    Num (-12#1) * Var 24 / (Site 0 * Site 0 * Site 0 * Site 0) / Num (2#1);
    (Num (-12#1) * Var 24 / (Site 0 * Site 0 * Site 0 * Site 0) + Num (4#1) / (Site 0 * Site 0 * Site 0)) / Num (2#1);
    Num (-12#1) * Var 24 / (Site 0 * Site 0 * Site 0 * Site 0) / Num (2#1)];
    [Num (-12#1) * Var 24 / (Site 0 * Site 0 * Site 0 * Site 0) / Num (2#1);
    Num (-12#1) * Var 24 / (Site 0 * Site 0 * Site 0 * Site 0) / Num (2#1);
    Num (-12#1) * Var 24 / (Site 0 * Site 0 * Site 0 * Site 0) / Num (2#1);
    Num (-12#1) * Var 24 / (Site 0 * Site 0 * Site 0 * Site 0) / Num (2#1);
    (Num (-12#1) * Var 24 / (Site 0 * Site 0 * Site 0 * Site 0) + Num (4#1) / (Site 0 * Site 0 * Site 0)) / Num (2#1);
    Num (-12#1) * Var 24 / (Site 0 * Site 0 * Site 0 * Site 0) / Num (2#1)];
    [Num (-12#1) * Var 24 / (Site 0 * Site 0 * Site 0 * Site 0) / Num (2#1);
    Num (-12#1) * Var 24 / (Site 0 * Site 0 * Site 0 * Site 0) / Num (2#1);
    Num (-12#1) * Var 24 / (Site 0 * Site 0 * Site 0 * Site 0) / Num (2#1);
    Num (-12#1) * Var 24 / (Site 0 * Site 0 * Site 0 * Site 0) / Num (2#1);
    (Num (-12#1) * Var 24 / (Site 0 * Site 0 * Site 0 * Site 0) + Num (4#1) / (Site 0 * Site 0 * Site 0)) / Num (2#1);
    Num (-12#1) * Var 24 / (Site 0 * Site 0 * Site 0 * Site 0) / Num (2#1)];
    [(Num (-12#1) * Var 24 / (Site 0 * Site 0 * Site 0 * Site 0) + Num (4#1) / (Site 0 * Site 0 * Site 0)) / Num (2#1);
    (Num (-12#1) * Var 24 / (Site 0 * Site 0 * Site 0 * Site 0) + Num (4#1) / (Site 0 * Site 0 * Site 0)) / Num (2#1);
    (Num (-12#1) * Var 24 / (Site 0 * Site 0 * Site 0 * Site 0) + Num (4#1) / (Site 0 * Site 0 * Site 0)) / Num (2#1);
    (Num (-12#1) * Var 24 / (Site 0 * Site 0 * Site 0 * Site 0) + Num (4#1) / (Site 0 * Site 0 * Site 0)) / Num (2#1);
    (Num (-12#1) * Var 24 / (Site 0 * Site 0 * Site 0 * Site 0) + Num (4#1) / (Site 0 * Site 0 * Site 0) + Num (4#1) / (Site 0 * Site 0 * Site 0)) / Num (2#1);
    (Num (-12#1) * Var 24 / (Site 0 * Site 0 * Site 0 * Site 0) + Num (4#1) / (Site 0 * Site 0 * Site 0)) / Num (2#1)];
    [Num (-12#1) * Var 24 / (Site 0 * Site 0 * Site 0 * Site 0) / Num (2#1);
    Num (-12#1) * Var 24 / (Site 0 * Site 0 * Site 0 * Site 0) / Num (2#1);
    Num (-12#1) * Var 24 / (Site 0 * Site 0 * Site 0 * Site 0) / Num (2#1);
    Num (-12#1) * Var 24 / (Site 0 * Site 0 * Site 0 * Site 0) / Num (2#1);
    (Num (-12#1) * Var 24 / (Site 0 * Site 0 * Site 0 * Site 0) + Num (4#1) / (Site 0 * Site 0 * Site 0)) / Num (2#1);
    Num (-12#1) * Var 24 / (Site 0 * Site 0 * Site 0 * Site 0) / Num (2#1)]];
    [[Num (-12#1) * Var 24 / (Site 0 * Site 0 * Site 0 * Site 0) / Num (2#1);
    Num (-12#1) * Var 24 / (Site 0 * Site 0 * Site 0 * Site 0) / Num (2#1);
    Num (-12#1) * Var 24 / (Site 0 * Site 0 * Site 0 * Site 0) / Num (2#1);
    Num (-12#1) * Var 24 / (Site 0 * Site 0 * Site 0 * Site 0) / Num (2#1);
    (Num (-12#1) * Var 24 / (Site 0 * Site 0 * Site 0 * Site 0) + Num (4#1) / (Site 0 * Site 0 * Site 0)) / Num (2#1);
    Num (-12#1) * Var 24 / (Site 0 * Site 0 * Site 0 * Site 0) / Num (2#1)];
    [Num (-12#1) * Var 24 / (Site 0 * Site 0 * Site 0 * Site 0) / Num (2#1);
    Num (-12#1) * Var 24 / (Site 0 * Site 0 * Site 0 * Site 0) / Num (2#1);
    Num (-12#1) * Var 24 / (Site 0 * Site 0 * Site 0 * Site 0) / Num (2#1);
    Num (-12#1) * Var 24 / (Site 0 * Site 0 * Site 0 * Site 0) / Num (2#1);
    (Num (-12#1) * Var 24 / (Site 0 * Site 0 * Site 0 * Site 0) + Num (4#1) / (Site 0 * Site 0 * Site 0)) / Num (2#1);
    Num (-12#1) * Var 24 / (Site 0 * Site 0 * Site 0 * Site 0) / Num (2#1)];
    [Num (-12#1) * Var 24 / (Site 0 * Site 0 * Site 0 * Site 0) / Num (2#1);
    Num (-12#1) * Var 24 / (Site 0 * Site 0 * Site 0 * Site 0) / Num (2#1);
    Num (-12#1) * Var 24 / (Site 0 * Site 0 * Site 0 * Site 0) / Num (2#1);
    Num (-12#1) * Var 24 / (Site 0 * Site 0 * Site 0 * Site 0) / Num (2#1);
    (Num (-12#1) * Var 24 / (Site 0 * Site 0 * Site 0 * Site 0) + Num (4#1) / (Site 0 * Site 0 * Site 0)) / Num (2#1);
    Num (-12#1) * Var 24 / (Site 0 * Site 0 * Site 0 * Site 0) / Num (2#1)];
    [Num (-12#1) * Var 24 / (Site 0 * Site 0 * Site 0 * Site 0) / Num (2#1);
    Num (-12#1) * Var 24 / (Site 0 * Site 0 * Site 0 * Site 0) / Num (2#1);
    Num (-12#1) * Var 24 / (Site 0 * Site 0 * Site 0 * Site 0) / Num (2#1);
    Num (-12#1) * Var 24 / (Site 0 * Site 0 * Site 0 * Site 0) / Num (2#1);
    (Num (-12#1) * Var 24 / (Site 0 * Site 0 * Site 0 * Site 0) + Num (4#1) / (Site 0 * Site 0 * Site 0)) / Num (2#1);
    Num (-12#1) * Var 24 / (Site 0 * Site 0 * Site 0 * Site 0) / Num (2#1)];
    [(Num (-12#1) * Var 24 / (Site 0 * Site 0 * Site 0 * Site 0) + Num (4#1) / (Site 0 * Site 0 * Site 0)) / Num (2#1);
    (Num (-12#1) * Var 24 / (Site 0 * Site 0 * Site 0 * Site 0) + Num (4#1) / (Site 0 * Site 0 * Site 0)) / Num (2#1);
    (Num (-12#1) * Var 24 / (Site 0 * Site 0 * Site 0 * Site 0) + Num (4#1) / (Site 0 * Site 0 * Site 0)) / Num (2#1);
    (Num (-12#1) * Var 24 / (Site 0 * Site 0 * Site 0 * Site 0) + Num (4#1) / (Site 0 * Site 0 * Site 0)) / Num (2#1);
    (Num (-12#1) * Var 24 / (Site 0 * Site 0 * Site 0 * Site 0) + Num (4#1) / (Site 0 * Site 0 * Site 0) + Num (4#1) / (Site 0 * Site 0 * Site 0)) / Num (2#1);
    (Num (-12#1) * Var 24 / (Site 0 * Site 0 * Site 0 * Site 0) + Num (4#1) / (Site 0 * Site 0 * Site 0)) / Num (2#1)];
    [Num (-12#1) * Var 24 / (Site 0 * Site 0 * Site 0 * Site 0) / Num (2#1);
    Num (-12#1) * Var 24 / (Site 0 * Site 0 * Site 0 * Site 0) / Num (2#1);
    Num (-12#1) * Var 24 / (Site 0 * Site 0 * Site 0 * Site 0) / Num (2#1);
    Num (-12#1) * Var 24 / (Site 0 * Site 0 * Site 0 * Site 0) / Num (2#1);
    (Num (-12#1) * Var 24 / (Site 0 * Site 0 * Site 0 * Site 0) + Num (4#1) / (Site 0 * Site 0 * Site 0)) / Num (2#1);
    Num (-12#1) * Var 24 / (Site 0 * Site 0 * Site 0 * Site 0) / Num (2#1)]];
    [[Num (-12#1) * Var 24 / (Site 0 * Site 0 * Site 0 * Site 0) / Num (2#1);
    Num (-12#1) * Var 24 / (Site 0 * Site 0 * Site 0 * Site 0) / Num (2#1);
    Num (-12#1) * Var 24 / (Site 0 * Site 0 * Site 0 * Site 0) / Num (2#1);
    Num (-12#1) * Var 24 / (Site 0 * Site 0 * Site 0 * Site 0) / Num (2#1);
    (Num (-12#1) * Var 24 / (Site 0 * Site 0 * Site 0 * Site 0) + Num (4#1) / (Site 0 * Site 0 * Site 0)) / Num (2#1);
    Num (-12#1) * Var 24 / (Site 0 * Site 0 * Site 0 * Site 0) / Num (2#1)];
    [Num (-12#1) * Var 24 / (Site 0 * Site 0 * Site 0 * Site 0) / Num (2#1);
    Num (-12#1) * Var 24 / (Site 0 * Site 0 * Site 0 * Site 0) / Num (2#1);
    Num (-12#1) * Var 24 / (Site 0 * Site 0 * Site 0 * Site 0) / Num (2#1);
    Num (-12#1) * Var 24 / (Site 0 * Site 0 * Site 0 * Site 0) / Num (2#1);
    (Num (-12#1) * Var 24 / (Site 0 * Site 0 * Site 0 * Site 0) + Num (4#1) / (Site 0 * Site 0 * Site 0)) / Num (2#1);
    Num (-12#1) * Var 24 / (Site 0 * Site 0 * Site 0 * Site 0) / Num (2#1)];
    [Num (-12#1) * Var 24 / (Site 0 * Site 0 * Site 0 * Site 0) / Num (2#1);
    Num (-12#1) * Var 24 / (Site 0 * Site 0 * Site 0 * Site 0) / Num (2#1);
    Num (-12#1) * Var 24 / (Site 0 * Site 0 * Site 0 * Site 0) / Num (2#1);
    Num (-12#1) * Var 24 / (Site 0 * Site 0 * Site 0 * Site 0) / Num (2#1);
    (Num (-12#1) * Var 24 / (Site 0 * Site 0 * Site 0 * Site 0) + Num (4#1) / (Site 0 * Site 0 * Site 0)) / Num (2#1);
    Num (-12#1) * Var 24 / (Site 0 * Site 0 * Site 0 * Site 0) / Num (2#1)];
    [Num (-12#1) * Var 24 / (Site 0 * Site 0 * Site 0 * Site 0) / Num (2#1);
    Num (-12#1) * Var 24 / (Site 0 * Site 0 * Site 0 * Site 0) / Num (2#1);
    Num (-12#1) * Var 24 / (Site 0 * Site 0 * Site 0 * Site 0) / Num (2#1);
    Num (-12#1) * Var 24 / (Site 0 * Site 0 * Site 0 * Site 0) / Num (2#1);
    (Num (-12#1) * Var 24 / (Site 0 * Site 0 * Site 0 * Site 0) + Num (4#1) / (Site 0 * Site 0 * Site 0)) / Num (2#1);
    Num (-12#1) * Var 24 / (Site 0 * Site 0 * Site 0 * Site 0) / Num (2#1)];
    [(Num (-12#1) * Var 24 / (Site 0 * Site 0 * Site 0 * Site 0) + Num (4#1) / (Site 0 * Site 0 * Site 0)) / Num (2#1);
    (Num (-12#1) * Var 24 / (Site 0 * Site 0 * Site 0 * Site 0) + Num (4#1) / (Site 0 * Site 0 * Site 0)) / Num (2#1);
    (Num (-12#1) * Var 24 / (Site 0 * Site 0 * Site 0 * Site 0) + Num (4#1) / (Site 0 * Site 0 * Site 0)) / Num (2#1);
    (Num (-12#1) * Var 24 / (Site 0 * Site 0 * Site 0 * Site 0) + Num (4#1) / (Site 0 * Site 0 * Site 0)) / Num (2#1);
    (Num (-12#1) * Var 24 / (Site 0 * Site 0 * Site 0 * Site 0) + Num (4#1) / (Site 0 * Site 0 * Site 0) + Num (4#1) / (Site 0 * Site 0 * Site 0)) / Num (2#1);
    (Num (-12#1) * Var 24 / (Site 0 * Site 0 * Site 0 * Site 0) + Num (4#1) / (Site 0 * Site 0 * Site 0)) / Num (2#1)];
    [Num (-12#1) * Var 24 / (Site 0 * Site 0 * Site 0 * Site 0) / Num (2#1);
    Num (-12#1) * Var 24 / (Site 0 * Site 0 * Site 0 * Site 0) / Num (2#1);
    Num (-12#1) * Var 24 / (Site 0 * Site 0 * Site 0 * Site 0) / Num (2#1);
    Num (-12#1) * Var 24 / (Site 0 * Site 0 * Site 0 * Site 0) / Num (2#1);
    (Num (-12#1) * Var 24 / (Site 0 * Site 0 * Site 0 * Site 0) + Num (4#1) / (Site 0 * Site 0 * Site 0)) / Num (2#1);
    Num (-12#1) * Var 24 / (Site 0 * Site 0 * Site 0 * Site 0) / Num (2#1)]];
    [[Num (-12#1) * Var 24 / (Site 0 * Site 0 * Site 0 * Site 0) / Num (2#1);
    Num (-12#1) * Var 24 / (Site 0 * Site 0 * Site 0 * Site 0) / Num (2#1);
    Num (-12#1) * Var 24 / (Site 0 * Site 0 * Site 0 * Site 0) / Num (2#1);
    Num (-12#1) * Var 24 / (Site 0 * Site 0 * Site 0 * Site 0) / Num (2#1);
    (Num (-12#1) * Var 24 / (Site 0 * Site 0 * Site 0 * Site 0) + Num (4#1) / (Site 0 * Site 0 * Site 0)) / Num (2#1);
    Num (-12#1) * Var 24 / (Site 0 * Site 0 * Site 0 * Site 0) / Num (2#1)];
    [Num (-12#1) * Var 24 / (Site 0 * Site 0 * Site 0 * Site 0) / Num (2#1);
    Num (-12#1) * Var 24 / (Site 0 * Site 0 * Site 0 * Site 0) / Num (2#1);
    Num (-12#1) * Var 24 / (Site 0 * Site 0 * Site 0 * Site 0) / Num (2#1);
    Num (-12#1) * Var 24 / (Site 0 * Site 0 * Site 0 * Site 0) / Num (2#1);
    (Num (-12#1) * Var 24 / (Site 0 * Site 0 * Site 0 * Site 0) + Num (4#1) / (Site 0 * Site 0 * Site 0)) / Num (2#1);
    Num (-12#1) * Var 24 / (Site 0 * Site 0 * Site 0 * Site 0) / Num (2#1)];
    [Num (-12#1) * Var 24 / (Site 0 * Site 0 * Site 0 * Site 0) / Num (2#1);
    Num (-12#1) * Var 24 / (Site 0 * Site 0 * Site 0 * Site 0) / Num (2#1);
    Num (-12#1) * Var 24 / (Site 0 * Site 0 * Site 0 * Site 0) / Num (2#1);
    Num (-12#1) * Var 24 / (Site 0 * Site 0 * Site 0 * Site 0) / Num (2#1);
    (Num (-12#1) * Var 24 / (Site 0 * Site 0 * Site 0 * Site 0) + Num (4#1) / (Site 0 * Site 0 * Site 0)) / Num (2#1);
    Num (-12#1) * Var 24 / (Site 0 * Site 0 * Site 0 * Site 0) / Num (2#1)];
    [Num (-12#1) * Var 24 / (Site 0 * Site 0 * Site 0 * Site 0) / Num (2#1);
    Num (-12#1) * Var 24 / (Site 0 * Site 0 * Site 0 * Site 0) / Num (2#1);
    Num (-12#1) * Var 24 / (Site 0 * Site 0 * Site 0 * Site 0) / Num (2#1);
    Num (-12#1) * Var 24 / (Site 0 * Site 0 * Site 0 * Site 0) / Num (2#1);
    (Num (-12#1) * Var 24 / (Site 0 * Site 0 * Site 0 * Site 0) + Num (4#1) / (Site 0 * Site 0 * Site 0)) / Num (2#1);
    Num (-12#1) * Var 24 / (Site 0 * Site 0 * Site 0 * Site 0) / Num (2#1)];
    [(Num (-12#1) * Var 24 / (Site 0 * Site 0 * Site 0 * Site 0) + Num (4#1) / (Site 0 * Site 0 * Site 0)) / Num (2#1);
    (Num (-12#1) * Var 24 / (Site 0 * Site 0 * Site 0 * Site 0) + Num (4#1) / (Site 0 * Site 0 * Site 0)) / Num (2#1);
    (Num (-12#1) * Var 24 / (Site 0 * Site 0 * Site 0 * Site 0) + Num (4#1) / (Site 0 * Site 0 * Site 0)) / Num (2#1);
    (Num (-12#1) * Var 24 / (Site 0 * Site 0 * Site 0 * Site 0) + Num (4#1) / (Site 0 * Site 0 * Site 0)) / Num (2#1);
    (Num (-12#1) * Var 24 / (Site 0 * Site 0 * Site 0 * Site 0) + Num (4#1) / (Site 0 * Site 0 * Site 0) + Num (4#1) / (Site 0 * Site 0 * Site 0)) / Num (2#1);
    (Num (-12#1) * Var 24 / (Site 0 * Site 0 * Site 0 * Site 0) + Num (4#1) / (Site 0 * Site 0 * Site 0)) / Num (2#1)];
    [Num (-12#1) * Var 24 / (Site 0 * Site 0 * Site 0 * Site 0) / Num (2#1);
    Num (-12#1) * Var 24 / (Site 0 * Site 0 * Site 0 * Site 0) / Num (2#1);
    Num (-12#1) * Var 24 / (Site 0 * Site 0 * Site 0 * Site 0) / Num (2#1);
    Num (-12#1) * Var 24 / (Site 0 * Site 0 * Site 0 * Site 0) / Num (2#1);
    (Num (-12#1) * Var 24 / (Site 0 * Site 0 * Site 0 * Site 0) + Num (4#1) / (Site 0 * Site 0 * Site 0)) / Num (2#1);
    Num (-12#1) * Var 24 / (Site 0 * Site 0 * Site 0 * Site 0) / Num (2#1)]];
    [[(Num (-12#1) * Var 24 / (Site 0 * Site 0 * Site 0 * Site 0) + Num (4#1) / (Site 0 * Site 0 * Site 0)) / Num (2#1);
    (Num (-12#1) * Var 24 / (Site 0 * Site 0 * Site 0 * Site 0) + Num (4#1) / (Site 0 * Site 0 * Site 0)) / Num (2#1);
    (Num (-12#1) * Var 24 / (Site 0 * Site 0 * Site 0 * Site 0) + Num (4#1) / (Site 0 * Site 0 * Site 0)) / Num (2#1);
    (Num (-12#1) * Var 24 / (Site 0 * Site 0 * Site 0 * Site 0) + Num (4#1) / (Site 0 * Site 0 * Site 0)) / Num (2#1);
    (Num (-12#1) * Var 24 / (Site 0 * Site 0 * Site 0 * Site 0) + Num (4#1) / (Site 0 * Site 0 * Site 0) + Num (4#1) / (Site 0 * Site 0 * Site 0)) / Num (2#1);
    (Num (-12#1) * Var 24 / (Site 0 * Site 0 * Site 0 * Site 0) + Num (4#1) / (Site 0 * Site 0 * Site 0)) / Num (2#1)];
    [(Num (-12#1) * Var 24 / (Site 0 * Site 0 * Site 0 * Site 0) + Num (4#1) / (Site 0 * Site 0 * Site 0)) / Num (2#1);
    (Num (-12#1) * Var 24 / (Site 0 * Site 0 * Site 0 * Site 0) + Num (4#1) / (Site 0 * Site 0 * Site 0)) / Num (2#1);
    (Num (-12#1) * Var 24 / (Site 0 * Site 0 * Site 0 * Site 0) + Num (4#1) / (Site 0 * Site 0 * Site 0)) / Num (2#1);
    (Num (-12#1) * Var 24 / (Site 0 * Site 0 * Site 0 * Site 0) + Num (4#1) / (Site 0 * Site 0 * Site 0)) / Num (2#1);
    (Num (-12#1) * Var 24 / (Site 0 * Site 0 * Site 0 * Site 0) + Num (4#1) / (Site 0 * Site 0 * Site 0) + Num (4#1) / (Site 0 * Site 0 * Site 0)) / Num (2#1);
    (Num (-12#1) * Var 24 / (Site 0 * Site 0 * Site 0 * Site 0) + Num (4#1) / (Site 0 * Site 0 * Site 0)) / Num (2#1)];
    [(Num (-12#1) * Var 24 / (Site 0 * Site 0 * Site 0 * Site 0) + Num (4#1) / (Site 0 * Site 0 * Site 0)) / Num (2#1);
    (Num (-12#1) * Var 24 / (Site 0 * Site 0 * Site 0 * Site 0) + Num (4#1) / (Site 0 * Site 0 * Site 0)) / Num (2#1);
    (Num (-12#1) * Var 24 / (Site 0 * Site 0 * Site 0 * Site 0) + Num (4#1) / (Site 0 * Site 0 * Site 0)) / Num (2#1);
    (Num (-12#1) * Var 24 / (Site 0 * Site 0 * Site 0 * Site 0) + Num (4#1) / (Site 0 * Site 0 * Site 0)) / Num (2#1);
    (Num (-12#1) * Var 24 / (Site 0 * Site 0 * Site 0 * Site 0) + Num (4#1) / (Site 0 * Site 0 * Site 0) + Num (4#1) / (Site 0 * Site 0 * Site 0)) / Num (2#1);
    (Num (-12#1) * Var 24 / (Site 0 * Site 0 * Site 0 * Site 0) + Num (4#1) / (Site 0 * Site 0 * Site 0)) / Num (2#1)];
    [(Num (-12#1) * Var 24 / (Site 0 * Site 0 * Site 0 * Site 0) + Num (4#1) / (Site 0 * Site 0 * Site 0)) / Num (2#1);
    (Num (-12#1) * Var 24 / (Site 0 * Site 0 * Site 0 * Site 0) + Num (4#1) / (Site 0 * Site 0 * Site 0)) / Num (2#1);
    (Num (-12#1) * Var 24 / (Site 0 * Site 0 * Site 0 * Site 0) + Num (4#1) / (Site 0 * Site 0 * Site 0)) / Num (2#1);
    (Num (-12#1) * Var 24 / (Site 0 * Site 0 * Site 0 * Site 0) + Num (4#1) / (Site 0 * Site 0 * Site 0)) / Num (2#1);
    (Num (-12#1) * Var 24 / (Site 0 * Site 0 * Site 0 * Site 0) + Num (4#1) / (Site 0 * Site 0 * Site 0) + Num (4#1) / (Site 0 * Site 0 * Site 0)) / Num (2#1);
    (Num (-12#1) * Var 24 / (Site 0 * Site 0 * Site 0 * Site 0) + Num (4#1) / (Site 0 * Site 0 * Site 0)) / Num (2#1)];
    [(Num (-12#1) * Var 24 / (Site 0 * Site 0 * Site 0 * Site 0) + Num (4#1) / (Site 0 * Site 0 * Site 0) + Num (4#1) / (Site 0 * Site 0 * Site 0)) / Num (2#1);
    (Num (-12#1) * Var 24 / (Site 0 * Site 0 * Site 0 * Site 0) + Num (4#1) / (Site 0 * Site 0 * Site 0) + Num (4#1) / (Site 0 * Site 0 * Site 0)) / Num (2#1);
    (Num (-12#1) * Var 24 / (Site 0 * Site 0 * Site 0 * Site 0) + Num (4#1) / (Site 0 * Site 0 * Site 0) + Num (4#1) / (Site 0 * Site 0 * Site 0)) / Num (2#1);
    (Num (-12#1) * Var 24 / (Site 0 * Site 0 * Site 0 * Site 0) + Num (4#1) / (Site 0 * Site 0 * Site 0) + Num (4#1) / (Site 0 * Site 0 * Site 0)) / Num (2#1);
    (Num (-12#1) * Var 24 / (Site 0 * Site 0 * Site 0 * Site 0) + Num (4#1) / (Site 0 * Site 0 * Site 0) + Num (4#1) / (Site 0 * Site 0 * Site 0) + Num (4#1) / (Site 0 * Site 0 * Site 0)) / Num (2#1);
    (Num (-12#1) * Var 24 / (Site 0 * Site 0 * Site 0 * Site 0) + Num (4#1) / (Site 0 * Site 0 * Site 0) + Num (4#1) / (Site 0 * Site 0 * Site 0)) / Num (2#1)];
    [(Num (-12#1) * Var 24 / (Site 0 * Site 0 * Site 0 * Site 0) + Num (4#1) / (Site 0 * Site 0 * Site 0)) / Num (2#1);
    (Num (-12#1) * Var 24 / (Site 0 * Site 0 * Site 0 * Site 0) + Num (4#1) / (Site 0 * Site 0 * Site 0)) / Num (2#1);
    (Num (-12#1) * Var 24 / (Site 0 * Site 0 * Site 0 * Site 0) + Num (4#1) / (Site 0 * Site 0 * Site 0)) / Num (2#1);
    (Num (-12#1) * Var 24 / (Site 0 * Site 0 * Site 0 * Site 0) + Num (4#1) / (Site 0 * Site 0 * Site 0)) / Num (2#1);
    (Num (-12#1) * Var 24 / (Site 0 * Site 0 * Site 0 * Site 0) + Num (4#1) / (Site 0 * Site 0 * Site 0) + Num (4#1) / (Site 0 * Site 0 * Site 0)) / Num (2#1);
    (Num (-12#1) * Var 24 / (Site 0 * Site 0 * Site 0 * Site 0) + Num (4#1) / (Site 0 * Site 0 * Site 0)) / Num (2#1)]];
    [[Num (-12#1) * Var 24 / (Site 0 * Site 0 * Site 0 * Site 0) / Num (2#1);
    Num (-12#1) * Var 24 / (Site 0 * Site 0 * Site 0 * Site 0) / Num (2#1);
    Num (-12#1) * Var 24 / (Site 0 * Site 0 * Site 0 * Site 0) / Num (2#1);
    Num (-12#1) * Var 24 / (Site 0 * Site 0 * Site 0 * Site 0) / Num (2#1);
    (Num (-12#1) * Var 24 / (Site 0 * Site 0 * Site 0 * Site 0) + Num (4#1) / (Site 0 * Site 0 * Site 0)) / Num (2#1);
    Num (-12#1) * Var 24 / (Site 0 * Site 0 * Site 0 * Site 0) / Num (2#1)];
    [Num (-12#1) * Var 24 / (Site 0 * Site 0 * Site 0 * Site 0) / Num (2#1);
    Num (-12#1) * Var 24 / (Site 0 * Site 0 * Site 0 * Site 0) / Num (2#1);
    Num (-12#1) * Var 24 / (Site 0 * Site 0 * Site 0 * Site 0) / Num (2#1);
    Num (-12#1) * Var 24 / (Site 0 * Site 0 * Site 0 * Site 0) / Num (2#1);
    (Num (-12#1) * Var 24 / (Site 0 * Site 0 * Site 0 * Site 0) + Num (4#1) / (Site 0 * Site 0 * Site 0)) / Num (2#1);
    Num (-12#1) * Var 24 / (Site 0 * Site 0 * Site 0 * Site 0) / Num (2#1)];
    [Num (-12#1) * Var 24 / (Site 0 * Site 0 * Site 0 * Site 0) / Num (2#1);
    Num (-12#1) * Var 24 / (Site 0 * Site 0 * Site 0 * Site 0) / Num (2#1);
    Num (-12#1) * Var 24 / (Site 0 * Site 0 * Site 0 * Site 0) / Num (2#1);
    Num (-12#1) * Var 24 / (Site 0 * Site 0 * Site 0 * Site 0) / Num (2#1);
    (Num (-12#1) * Var 24 / (Site 0 * Site 0 * Site 0 * Site 0) + Num (4#1) / (Site 0 * Site 0 * Site 0)) / Num (2#1);
    Num (-12#1) * Var 24 / (Site 0 * Site 0 * Site 0 * Site 0) / Num (2#1)];
    [Num (-12#1) * Var 24 / (Site 0 * Site 0 * Site 0 * Site 0) / Num (2#1);
    Num (-12#1) * Var 24 / (Site 0 * Site 0 * Site 0 * Site 0) / Num (2#1);
    Num (-12#1) * Var 24 / (Site 0 * Site 0 * Site 0 * Site 0) / Num (2#1);
    Num (-12#1) * Var 24 / (Site 0 * Site 0 * Site 0 * Site 0) / Num (2#1);
    (Num (-12#1) * Var 24 / (Site 0 * Site 0 * Site 0 * Site 0) + Num (4#1) / (Site 0 * Site 0 * Site 0)) / Num (2#1);
    Num (-12#1) * Var 24 / (Site 0 * Site 0 * Site 0 * Site 0) / Num (2#1)];
    [(Num (-12#1) * Var 24 / (Site 0 * Site 0 * Site 0 * Site 0) + Num (4#1) / (Site 0 * Site 0 * Site 0)) / Num (2#1);
    (Num (-12#1) * Var 24 / (Site 0 * Site 0 * Site 0 * Site 0) + Num (4#1) / (Site 0 * Site 0 * Site 0)) / Num (2#1);
    (Num (-12#1) * Var 24 / (Site 0 * Site 0 * Site 0 * Site 0) + Num (4#1) / (Site 0 * Site 0 * Site 0)) / Num (2#1);
    (Num (-12#1) * Var 24 / (Site 0 * Site 0 * Site 0 * Site 0) + Num (4#1) / (Site 0 * Site 0 * Site 0)) / Num (2#1);
    (Num (-12#1) * Var 24 / (Site 0 * Site 0 * Site 0 * Site 0) + Num (4#1) / (Site 0 * Site 0 * Site 0) + Num (4#1) / (Site 0 * Site 0 * Site 0)) / Num (2#1);
    (Num (-12#1) * Var 24 / (Site 0 * Site 0 * Site 0 * Site 0) + Num (4#1) / (Site 0 * Site 0 * Site 0)) / Num (2#1)];
    [Num (-12#1) * Var 24 / (Site 0 * Site 0 * Site 0 * Site 0) / Num (2#1);
    Num (-12#1) * Var 24 / (Site 0 * Site 0 * Site 0 * Site 0) / Num (2#1);
    Num (-12#1) * Var 24 / (Site 0 * Site 0 * Site 0 * Site 0) / Num (2#1);
    Num (-12#1) * Var 24 / (Site 0 * Site 0 * Site 0 * Site 0) / Num (2#1);
    (Num (-12#1) * Var 24 / (Site 0 * Site 0 * Site 0 * Site 0) + Num (4#1) / (Site 0 * Site 0 * Site 0)) / Num (2#1);
    Num (-12#1) * Var 24 / (Site 0 * Site 0 * Site 0 * Site 0) / Num (2#1)]]]].
(** sources/olivine.c 2519-2719: conOlv, inpMask THIRD, output x[i] from r *)
Definition Olv_con_xr :=
  [(Num (1#1) + Var 2) / Num (2#1);
    (Num (1#1) + Var 3) / Num (2#1);
    (Num (1#1) + Var 4) / Num (2#1);
    (Num (1#1) + Var 5) / Num (2#1);
    Var 6;
    Num (-1#1) - (Var 2 + Var 3 + Var 4 + Var 5) / Num (2#1) - Var 6].
(** sources/olivine.c 2519-2719: conOlv, inpMask THIRD, output dr[i][j] *)
Definition Olv_con_dr :=
  [[Num (1#2);
    Num (0#1);
    Num (0#1);
    Num (0#1);
    Num (0#1)];
    [Num (0#1);
    Num (1#2);
    Num (0#1);
    Num (0#1);
    Num (0#1)];
    [Num (0#1);
    Num (0#1);
    Num (1#2);
    Num (0#1);
    Num (0#1)];
    [Num (0#1);
    Num (0#1);
    Num (0#1);
    Num (1#2);
    Num (0#1)];
    [Num (0#1);
    Num (0#1);
    Num (0#1);
    Num (0#1);
    Num (1#1)];
    [Num (-1#2);
    Num (-1#2);
    Num (-1#2);
    Num (-1#2);
    Num (-1#1)]].
(** sources/olivine.c 2519-2719: x[i] from r is set to zero when it is smaller in absolute value than this number *)
Definition Olv_con_snap : list (nat * Q) := [(0%nat, (1#4503599627370496)); (1%nat, (1#4503599627370496)); (2%nat, (1#4503599627370496)); (3%nat, (1#4503599627370496)); (4%nat, (1#4503599627370496)); (5%nat, (1#4503599627370496))].
Definition conOlv : conv :=
  mkConv "olivine" 6 5 Olv_con_r Olv_con_x Olv_con_dm Olv_con_d2m Olv_con_d3m Olv_con_xr Olv_con_dr Olv_con_snap.

(** sources/ortho-oxide.c 1924-2102: conOox, inpMask SECOND, output r[i] from m *)
Definition Oox_con_r :=
  [Var 21 / Site 0;
    Var 22 / Site 0].
(** sources/ortho-oxide.c 1924-2102: conOox, inpMask SECOND, output x[i] from m *)
Definition Oox_con_x :=
  [Var 20 / Site 0;
    Var 21 / Site 0;
    Var 22 / Site 0].
(** sources/ortho-oxide.c 1924-2102: conOox, inpMask SECOND, output dm[i][j] *)
Definition Oox_con_dm :=
  [[(- Var 21) / (Site 0 * Site 0);
    (Num (1#1) - Var 21 / Site 0) / Site 0;
    (- Var 21) / (Site 0 * Site 0)];
    [(- Var 22) / (Site 0 * Site 0);
    (- Var 22) / (Site 0 * Site 0);
    (Num (1#1) - Var 22 / Site 0) / Site 0]].
(** sources/ortho-oxide.c 1924-2102: conOox, inpMask SECOND, output d2m[i][j][k] *)
Definition Oox_con_d2m :=
  [[[Num (2#1) * Var 21 / (Site 0 * Site 0 * Site 0);
    Num (2#1) * Var 21 / (Site 0 * Site 0 * Site 0) - Num (1#1) / (Site 0 * Site 0);
    Num (2#1) * Var 21 / (Site 0 * Site 0 * Site 0)];
    [Num (2#1) * Var 21 / (Site 0 * Site 0 * Site 0) - Num (1#1) / (Site 0 * Site 0);
    Num (2#1) * Var 21 / (Site 0 * Site 0 * Site 0) - Num (1#1) / (Site 0 * Site 0) - Num (1#1) / (Site 0 * Site 0);
    Num (2#1) * Var 21 / (Site 0 * Site 0 * Site 0) - Num (1#1) / (Site 0 * Site 0)];
    [Num (2#1) * Var 21 / (Site 0 * Site 0 * Site 0);
    Num (2#1) * Var 21 / (Site 0 * Site 0 * Site 0) - Num (1#1) / (Site 0 * Site 0);
    Num (2#1) * Var 21 / (Site 0 * Site 0 * Site 0)]];
    [[Num (2#1) * Var 22 / (Site 0 * Site 0 * Site 0);
    Num (2#1) * Var 22 / (Site 0 * Site 0 * Site 0);
    Num (2#1) * Var 22 / (Site 0 * Site 0 * Site 0) - Num (1#1) / (Site 0 * Site 0)];
    [Num (2#1) * Var 22 / (Site 0 * Site 0 * Site 0);
    Num (2#1) * Var 22 / (Site 0 * Site 0 * Site 0);
    Num (2#1) * Var 22 / (Site 0 * Site 0 * Site 0) - Num (1#1) / (Site 0 * Site 0)];
    [Num (2#1) * Var 22 / (Site 0 * Site 0 * Site 0) - Num (1#1) / (Site 0 * Site 0);
    Num (2#1) * Var 22 / (Site 0 * Site 0 * Site 0) - Num (1#1) / (Site 0 * Site 0);
    Num (2#1) * Var 22 / (Site 0 * Site 0 * Site 0) - Num (1#1) / (Site 0 * Site 0) - Num (1#1) / (Site 0 * Site 0)]]].
(** sources/ortho-oxide.c 1924-2102: conOox, inpMask SECOND, output d3m[i][j][k][l] *)
Definition Oox_con_d3m :=
  [[[[Num (-6#1) * Var 21 / (Site 0 * Site 0 * Site 0 * Site 0);
    Num (-6#1) * Var 21 / (Site 0 * Site 0 * Site 0 * Site 0) + Num (2#1) / (Site 0 * Site 0 * Site 0);
    Num (-6#1) * Var 21 / (Site 0 * Site 0 * Site 0 * Site 0)];
    [Num (-6#1) * Var 21 / (Site 0 * Site 0 * Site 0 * Site 0) + Num (2#1) / (Site 0 * Site 0 * Site 0);
    Num (-6#1) * Var 21 / (Site 0 * Site 0 * Site 0 * Site 0) + Num (2#1) / (Site 0 * Site 0 * Site 0) + Num (2#1) / (Site 0 * Site 0 * Site 0);
    Num (-6#1) * Var 21 / (Site 0 * Site 0 * Site 0 * Site 0) + Num (2#1) / (Site 0 * Site 0 * Site 0)];
    [Num (-6#1) * Var 21 / (Site 0 * Site 0 * Site 0 * Site 0);
    Num (-6#1) * Var 21 / (Site 0 * Site 0 * Site 0 * Site 0) + Num (2#1) / (Site 0 * Site 0 * Site 0);
    Num (-6#1) * Var 21 / (Site 0 * Site 0 * Site 0 * Site 0)]];
    [[Num (-6#1) * Var 21 / (Site 0 * Site 0 * Site 0 * Site 0) + Num (2#1) / (Site 0 * Site 0 * Site 0);
    Num (-6#1) * Var 21 / (Site 0 * Site 0 * Site 0 * Site 0) + Num (2#1) / (Site 0 * Site 0 * Site 0) + Num (2#1) / (Site 0 * Site 0 * Site 0);
    Num (-6#1) * Var 21 / (Site 0 * Site 0 * Site 0 * Site 0) + Num (2#1) / (Site 0 * Site 0 * Site 0)];
    [Num (-6#1) * Var 21 / (Site 0 * Site 0 * Site 0 * Site 0) + Num (2#1) / (Site 0 * Site 0 * Site 0) + Num (2#1) / (Site 0 * Site 0 * Site 0);
    Num (-6#1) * Var 21 / (Site 0 * Site 0 * Site 0 * Site 0) + Num (2#1) / (Site 0 * Site 0 * Site 0) + Num (2#1) / (Site 0 * Site 0 * Site 0) + Num (2#1) / (Site 0 * Site 0 * Site 0);
    Num (-6#1) * Var 21 / (Site 0 * Site 0 * Site 0 * Site 0) + Num (2#1) / (Site 0 * Site 0 * Site 0) + Num (2#1) / (Site 0 * Site 0 * Site 0)];
    [Num (-6#1) * Var 21 / (Site 0 * Site 0 * Site 0 * Site 0) + Num (2#1) / (Site 0 * Site 0 * Site 0);
    Num (-6#1) * Var 21 / (Site 0 * Site 0 * Site 0 * Site 0) + Num (2#1) / (Site 0 * Site 0 * Site 0) + Num (2#1) / (Site 0 * Site 0 * Site 0);
    Num (-6#1) * Var 21 / (Site 0 * Site 0 * Site 0 * Site 0) + Num (2#1) / (Site 0 * Site 0 * Site 0)]];
    [[Num (-6#1) * Var 21 / (Site 0 * Site 0 * Site 0 * Site 0);
    Num (-6#1) * Var 21 / (Site 0 * Site 0 * Site 0 * Site 0) + Num (2#1) / (Site 0 * Site 0 * Site 0);
    Num (-6#1) * Var 21 / (Site 0 * Site 0 * Site 0 * Site 0)];
    [Num (-6#1) * Var 21 / (Site 0 * Site 0 * Site 0 * Site 0) + Num (2#1) / (Site 0 * Site 0 * Site 0);
    Num (-6#1) * Var 21 / (Site 0 * Site 0 * Site 0 * Site 0) + Num (2#1) / (Site 0 * Site 0 * Site 0) + Num (2#1) / (Site 0 * Site 0 * Site 0);
    Num (-6#1) * Var 21 / (Site 0 * Site 0 * Site 0 * Site 0) + Num (2#1) / (Site 0 * Site 0 * Site 0)];
    [Num (-6#1) * Var 21 / (Site 0 * Site 0 * Site 0 * Site 0);
    Num (-6#1) * Var 21 / (Site 0 * Site 0 * Site 0 * Site 0) + Num (2#1) / (Site 0 * Site 0 * Site 0);
    Num (-6#1) * Var 21 / (Site 0 * Site 0 * Site 0 * Site 0)]]];
    [[[Num (-6#1) * Var 22 / (Site 0 * Site 0 * Site 0 * Site 0);
    Num (-6#1) * Var 22 / (Site 0 * Site 0 * Site 0 * Site 0);
    Num (-6#1) * Var 22 / (Site 0 * Site 0 * Site 0 * Site 0) + Num (2#1) / (Site 0 * Site 0 * Site 0)];
    [Num (-6#1) * Var 22 / (Site 0 * Site 0 * Site 0 * Site 0);
    Num (-6#1) * Var 22 / (Site 0 * Site 0 * Site 0 * Site 0);
    Num (-6#1) * Var 22 / (Site 0 * Site 0 * Site 0 * Site 0) + Num (2#1) / (Site 0 * Site 0 * Site 0)];
    [Num (-6#1) * Var 22 / (Site 0 * Site 0 * Site 0 * Site 0) + Num (2#1) / (Site 0 * Site 0 * Site 0);
    Num (-6#1) * Var 22 / (Site 0 * Site 0 * Site 0 * Site 0) + Num (2#1) / (Site 0 * Site 0 * Site 0);
    Num (-6#1) * Var 22 / (Site 0 * Site 0 * Site 0 * Site 0) + Num (2#1) / (Site 0 * Site 0 * Site 0) + Num (2#1) / (Site 0 * Site 0 * Site 0)]];
    [[Num (-6#1) * Var 22 / (Site 0 * Site 0 * Site 0 * Site 0);
    Num (-6#1) * Var 22 / (Site 0 * Site 0 * Site 0 * Site 0);
    Num (-6#1) * Var 22 / (Site 0 * Site 0 * Site 0 * Site 0) + Num (2#1) / (Site 0 * Site 0 * Site 0)];
    [Num (-6#1) * Var 22 / (Site 0 * Site 0 * Site 0 * Site 0);
    Num (-6#1) * Var 22 / (Site 0 * Site 0 * Site 0 * Site 0);
    Num (-6#1) * Var 22 / (Site 0 * Site 0 * Site 0 * Site 0) + Num (2#1) / (Site 0 * Site 0 * Site 0)];
    [Num (-6#1) * Var 22 / (Site 0 * Site 0 * Site 0 * Site 0) + Num (2#1) / (Site 0 * Site 0 * Site 0);
    Num (-6#1) * Var 22 / (Site 0 * Site 0 * Site 0 * Site 0) + Num (2#1) / (Site 0 * Site 0 * Site 0);
    Num (-6#1) * Var 22 / (Site 0 * Site 0 * Site 0 * Site 0) + Num (2#1) / (Site 0 * Site 0 * Site 0) + Num (2#1) / (Site 0 * Site 0 * Site 0)]];
    [[Num (-6#1) * Var 22 / (Site 0 * Site 0 * Site 0 * Site 0) + Num (2#1) / (Site 0 * Site 0 * Site 0);
    Num (-6#1) * Var 22 / (Site 0 * Site 0 * Site 0 * Site 0) + Num (2#1) / (Site 0 * Site 0 * Site 0);
    Num (-6#1) * Var 22 / (Site 0 * Site 0 * Site 0 * Site 0) + Num (2#1) / (Site 0 * Site 0 * Site 0) + Num (2#1) / (Site 0 * Site 0 * Site 0)];
    [Num (-6#1) * Var 22 / (Site 0 * Site 0 * Site 0 * Site 0) + Num (2#1) / (Site 0 * Site 0 * Site 0);
    Num (-6#1) * Var 22 / (Site 0 * Site 0 * Site 0 * Site 0) + Num (2#1) / (Site 0 * Site 0 * Site 0);
    Num (-6#1) * Var 22 / (Site 0 * Site 0 * Site 0 * Site 0) + Num (2#1) / (Site 0 * Site 0 * Site 0) + Num (2#1) / (Site 0 * Site 0 * Site 0)];
    [Num (-6#1) * Var 22 / (Site 0 * Site 0 * Site 0 * Site 0) + Num (2#1) / (Site 0 * Site 0 * Site 0) + Num (2#1) / (Site 0 * Site 0 * Site 0);
    Num (-6#1) * Var 22 / (Site 0 * Site 0 * Site 0 * Site 0) + Num (2#1) / (Site 0 * Site 0 * Site 0) + Num (2#1) / (Site 0 * Site 0 * Site 0);
    Num (-6#1) * Var 22 / (Site 0 * Site 0 * Site 0 * Site 0) + Num (2#1) / (Site 0 * Site 0 * Site 0) + Num (2#1) / (Site 0 * Site 0 * Site 0) + Num (2#1) / (Site 0 * Site 0 * Site 0)]]]].
(** sources/ortho-oxide.c 1924-2102: conOox, inpMask THIRD, output x[i] from r *)
Definition Oox_con_xr :=
  [Num (1#1) - Var 2 - Var 3;
    Var 2;
    Var 3].
(** sources/ortho-oxide.c 1924-2102: conOox, inpMask THIRD, output dr[i][j] *)
Definition Oox_con_dr :=
  [[Num (-1#1);
    Num (-1#1)];
    [Num (1#1);
    Num (0#1)];
    [Num (0#1);
    Num (1#1)]].
(** sources/ortho-oxide.c 1924-2102: x[i] from r is set to zero when it is smaller in absolute value than this number *)
Definition Oox_con_snap : list (nat * Q) := [].
Definition conOox : conv :=
  mkConv "ortho-oxide" 3 2 Oox_con_r Oox_con_x Oox_con_dm Oox_con_d2m Oox_con_d3m Oox_con_xr Oox_con_dr Oox_con_snap.

(** sources/orthopyroxene.c 4117-4400: conOpx, inpMask SECOND, output r[i] from m *)
Definition Opx_con_r :=
  [Var 22 / Site 0;
    (Var 23 + Var 26 / Num (2#1)) / Site 0;
    (Var 24 - Var 26 / Num (2#1)) / Site 0;
    (Var 25 + Var 26 / Num (2#1)) / Site 0;
    Var 26 / Site 0;
    Var 21 / Site 0].
(** sources/orthopyroxene.c 4117-4400: conOpx, inpMask SECOND, output x[i] from m *)
Definition Opx_con_x :=
  [Var 20 / Site 0;
    Var 21 / Site 0;
    Var 22 / Site 0;
    Var 23 / Site 0;
    Var 24 / Site 0;
    Var 25 / Site 0;
    Var 26 / Site 0].
(** sources/orthopyroxene.c 4117-4400: conOpx, inpMask SECOND, output dm[i][j] *)
Definition Opx_con_dm :=
  [[(- Var 22) / (Site 0 * Site 0);
    (- Var 22) / (Site 0 * Site 0);
    (- Var 22) / (Site 0 * Site 0) + Num (1#1) / Site 0;
    (- Var 22) / (Site 0 * Site 0);
    (- Var 22) / (Site 0 * Site 0);
    (- Var 22) / (Site 0 * Site 0);
    (- Var 22) / (Site 0 * Site 0)];
    [(- (Var 23 + Var 26 / Num (2#1))) / (Site 0 * Site 0);
    (- (Var 23 + Var 26 / Num (2#1))) / (Site 0 * Site 0);
    (- (Var 23 + Var 26 / Num (2#1))) / (Site 0 * Site 0);
    (- (Var 23 + Var 26 / Num (2#1))) / (Site 0 * Site 0) + Num (1#1) / Site 0;
    (- (Var 23 + Var 26 / Num (2#1))) / (Site 0 * Site 0);
    (- (Var 23 + Var 26 / Num (2#1))) / (Site 0 * Site 0);
    (- (Var 23 + Var 26 / Num (2#1))) / (Site 0 * Site 0) + Num (1#2) / Site 0];
    [(- (Var 24 - Var 26 / Num (2#1))) / (Site 0 * Site 0);
    (- (Var 24 - Var 26 / Num (2#1))) / (Site 0 * Site 0);
    (- (Var 24 - Var 26 / Num (2#1))) / (Site 0 * Site 0);
    (- (Var 24 - Var 26 / Num (2#1))) / (Site 0 * Site 0);
    (- (Var 24 - Var 26 / Num (2#1))) / (Site 0 * Site 0) + Num (1#1) / Site 0;
    (- (Var 24 - Var 26 / Num (2#1))) / (Site 0 * Site 0);
    (- (Var 24 - Var 26 / Num (2#1))) / (Site 0 * Site 0) - Num (1#2) / Site 0];
    [(- (Var 25 + Var 26 / Num (2#1))) / (Site 0 * Site 0);
    (- (Var 25 + Var 26 / Num (2#1))) / (Site 0 * Site 0);
    (- (Var 25 + Var 26 / Num (2#1))) / (Site 0 * Site 0);
    (- (Var 25 + Var 26 / Num (2#1))) / (Site 0 * Site 0);
    (- (Var 25 + Var 26 / Num (2#1))) / (Site 0 * Site 0);
    (- (Var 25 + Var 26 / Num (2#1))) / (Site 0 * Site 0) + Num (1#1) / Site 0;
    (- (Var 25 + Var 26 / Num (2#1))) / (Site 0 * Site 0) + Num (1#2) / Site 0];
    [(- Var 26) / (Site 0 * Site 0);
    (- Var 26) / (Site 0 * Site 0);
    (- Var 26) / (Site 0 * Site 0);
    (- Var 26) / (Site 0 * Site 0);
    (- Var 26) / (Site 0 * Site 0);
    (- Var 26) / (Site 0 * Site 0);
    (- Var 26) / (Site 0 * Site 0) + Num (1#1) / Site 0];
    [(- Var 21) / (Site 0 * Site 0);
    (- Var 21) / (Site 0 * Site 0) + Num (1#1) / Site 0;
    (- Var 21) / (Site 0 * Site 0);
    (- Var 21) / (Site 0 * Site 0);
    (- Var 21) / (Site 0 * Site 0);
    (- Var 21) / (Site 0 * Site 0);
    (- Var 21) / (Site 0 * Site 0)]].
(** sources/orthopyroxene.c 4117-4400: conOpx, inpMask SECOND, output d2m[i][j][k] *)
Definition Opx_con_d2m :=
  [[[Num (2#1) * Var 22 / (Site 0 * Site 0 * Site 0);
    Num (2#1) * Var 22 / (Site 0 * Site 0 * Site 0);
    Num (2#1) * Var 22 / (Site 0 * Site 0 * Site 0) - Num (1#1) / (Site 0 * Site 0);
    Num (2#1) * Var 22 / (Site 0 * Site 0 * Site 0);
    Num (2#1) * Var 22 / (Site 0 * Site 0 * Site 0);
    Num (2#1) * Var 22 / (Site 0 * Site 0 * Site 0);
    Num (2#1) * Var 22 / (Site 0 * Site 0 * Site 0)];
    [Num (2#1) * Var 22 / (Site 0 * Site 0 * Site 0);
    Num (2#1) * Var 22 / (Site 0 * Site 0 * Site 0);
    Num (2#1) * Var 22 / (Site 0 * Site 0 * Site 0) - Num (1#1) / (Site 0 * Site 0);
    Num (2#1) * Var 22 / (Site 0 * Site 0 * Site 0);
    Num (2#1) * Var 22 / (Site 0 * Site 0 * Site 0);
    Num (2#1) * Var 22 / (Site 0 * Site 0 * Site 0);
    Num (2#1) * Var 22 / (Site 0 * Site 0 * Site 0)];
    [Num (2#1) * Var 22 / (Site 0 * Site 0 * Site 0) - Num (1#1) / (Site 0 * Site 0);
    Num (2#1) * Var 22 / (Site 0 * Site 0 * Site 0) - Num (1#1) / (Site 0 * Site 0);
    Num (2#1) * Var 22 / (Site 0 * Site 0 * Site 0) - Num (1#1) / (Site 0 * Site 0) - Num (1#1) / (Site 0 * Site 0);
    Num (2#1) * Var 22 / (Site 0 * Site 0 * Site 0) - Num (1#1) / (Site 0 * Site 0);
    Num (2#1) * Var 22 / (Site 0 * Site 0 * Site 0) - Num (1#1) / (Site 0 * Site 0);
    Num (2#1) * Var 22 / (Site 0 * Site 0 * Site 0) - Num (1#1) / (Site 0 * Site 0);
    Num (2#1) * Var 22 / (Site 0 * Site 0 * Site 0) - Num (1#1) / (Site 0 * Site 0)];
    [Num (2#1) * Var 22 / (Site 0 * Site 0 * Site 0);
    Num (2#1) * Var 22 / (Site 0 * Site 0 * Site 0);
    Num (2#1) * Var 22 / (Site 0 * Site 0 * Site 0) - Num (1#1) / (Site 0 * Site 0);
    Num (2#1) * Var 22 / (Site 0 * Site 0 * Site 0);
    Num (2#1) * Var 22 / (Site 0 * Site 0 * Site 0);
    Num (2#1) * Var 22 / (Site 0 * Site 0 * Site 0);
    Num (2#1) * Var 22 / (Site 0 * Site 0 * Site 0)];
    [Num (2#1) * Var 22 / (Site 0 * Site 0 * Site 0);
    Num (2#1) * Var 22 / (Site 0 * Site 0 * Site 0);
    Num (2#1) * Var 22 / (Site 0 * Site 0 * Site 0) - Num (1#1) / (Site 0 * Site 0);
    Num (2#1) * Var 22 / (Site 0 * Site 0 * Site 0);
    Num (2#1) * Var 22 / (Site 0 * Site 0 * Site 0);
    Num (2#1) * Var 22 / (Site 0 * Site 0 * Site 0);
    Num (2#1) * Var 22 / (Site 0 * Site 0 * Site 0)];
    [Num (2#1) * Var 22 / (Site 0 * Site 0 * Site 0);
    Num (2#1) * Var 22 / (Site 0 * Site 0 * Site 0);
    Num (2#1) * Var 22 / (Site 0 * Site 0 * Site 0) - Num (1#1) / (Site 0 * Site 0);
    Num (2#1) * Var 22 / (Site 0 * Site 0 * Site 0);
    Num (2#1) * Var 22 / (Site 0 * Site 0 * Site 0);
    Num (2#1) * Var 22 / (Site 0 * Site 0 * Site 0);
    Num (2#1) * Var 22 / (Site 0 * Site 0 * Site 0)];
    [Num (2#1) * Var 22 / (Site 0 * Site 0 * Site 0);
    Num (2#1) * Var 22 / (Site 0 * Site 0 * Site 0);
    Num (2#1) * Var 22 / (Site 0 * Site 0 * Site 0) - Num (1#1) / (Site 0 * Site 0);
    Num (2#1) * Var 22 / (Site 0 * Site 0 * Site 0);
    Num (2#1) * Var 22 / (Site 0 * Site 0 * Site 0);
    Num (2#1) * Var 22 / (Site 0 * Site 0 * Site 0);
    Num (2#1) * Var 22 / (Site 0 * Site 0 * Site 0)]];
    [[Num (2#1) * (Var 23 + Var 26 / Num (2#1)) / (Site 0 * Site 0 * Site 0);
    Num (2#1) * (Var 23 + Var 26 / Num (2#1)) / (Site 0 * Site 0 * Site 0);
    Num (2#1) * (Var 23 + Var 26 / Num (2#1)) / (Site 0 * Site 0 * Site 0);
    Num (2#1) * (Var 23 + Var 26 / Num (2#1)) / (Site 0 * Site 0 * Site 0) - Num (1#1) / (Site 0 * Site 0);
    Num (2#1) * (Var 23 + Var 26 / Num (2#1)) / (Site 0 * Site 0 * Site 0);
    Num (2#1) * (Var 23 + Var 26 / Num (2#1)) / (Site 0 * Site 0 * Site 0);
    Num (2#1) * (Var 23 + Var 26 / Num (2#1)) / (Site 0 * Site 0 * Site 0) - Num (1#2) / (Site 0 * Site 0)];
    [Num (2#1) * (Var 23 + Var 26 / Num (2#1)) / (Site 0 * Site 0 * Site 0);
    Num (2#1) * (Var 23 + Var 26 / Num (2#1)) / (Site 0 * Site 0 * Site 0);
    Num (2#1) * (Var 23 + Var 26 / Num (2#1)) / (Site 0 * Site 0 * Site 0);
    Num (2#1) * (Var 23 + Var 26 / Num (2#1)) / (Site 0 * Site 0 * Site 0) - Num (1#1) / (Site 0 * Site 0);
    Num (2#1) * (Var 23 + Var 26 / Num (2#1)) / (Site 0 * Site 0 * Site 0);
    Num (2#1) * (Var 23 + Var 26 / Num (2#1)) / (Site 0 * Site 0 * Site 0);
    Num (2#1) * (Var 23 + Var 26 / Num (2#1)) / (Site 0 * Site 0 * Site 0) - Num (1#2) / (Site 0 * Site 0)];
    [Num (2#1) * (Var 23 + Var 26 / Num (2#1)) / (Site 0 * Site 0 * Site 0);
    Num (2#1) * (Var 23 + Var 26 / Num (2#1)) / (Site 0 * Site 0 * Site 0);
    Num (2#1) * (Var 23 + Var 26 / Num (2#1)) / (Site 0 * Site 0 * Site 0);
    Num (2#1) * (Var 23 + Var 26 / Num (2#1)) / (Site 0 * Site 0 * Site 0) - Num (1#1) / (Site 0 * Site 0);
    Num (2#1) * (Var 23 + Var 26 / Num (2#1)) / (Site 0 * Site 0 * Site 0);
    Num (2#1) * (Var 23 + Var 26 / Num (2#1)) / (Site 0 * Site 0 * Site 0);
    Num (2#1) * (Var 23 + Var 26 / Num (2#1)) / (Site 0 * Site 0 * Site 0) - Num (1#2) / (Site 0 * Site 0)];
    [Num (2#1) * (Var 23 + Var 26 / Num (2#1)) / (Site 0 * Site 0 * Site 0) - Num (1#1) / (Site 0 * Site 0);
    Num (2#1) * (Var 23 + Var 26 / Num (2#1)) / (Site 0 * Site 0 * Site 0) - Num (1#1) / (Site 0 * Site 0);
    Num (2#1) * (Var 23 + Var 26 / Num (2#1)) / (Site 0 * Site 0 * Site 0) - Num (1#1) / (Site 0 * Site 0);
    Num (2#1) * (Var 23 + Var 26 / Num (2#1)) / (Site 0 * Site 0 * Site 0) - Num (1#1) / (Site 0 * Site 0) - Num (1#1) / (Site 0 * Site 0);
    Num (2#1) * (Var 23 + Var 26 / Num (2#1)) / (Site 0 * Site 0 * Site 0) - Num (1#1) / (Site 0 * Site 0);
    Num (2#1) * (Var 23 + Var 26 / Num (2#1)) / (Site 0 * Site 0 * Site 0) - Num (1#1) / (Site 0 * Site 0);
    Num (2#1) * (Var 23 + Var 26 / Num (2#1)) / (Site 0 * Site 0 * Site 0) - Num (1#1) / (Site 0 * Site 0) - Num (1#2) / (Site 0 * Site 0)];
    [Num (2#1) * (Var 23 + Var 26 / Num (2#1)) / (Site 0 * Site 0 * Site 0);
    Num (2#1) * (Var 23 + Var 26 / Num (2#1)) / (Site 0 * Site 0 * Site 0);
    Num (2#1) * (Var 23 + Var 26 / Num (2#1)) / (Site 0 * Site 0 * Site 0);
    Num (2#1) * (Var 23 + Var 26 / Num (2#1)) / (Site 0 * Site 0 * Site 0) - Num (1#1) / (Site 0 * Site 0);
    Num (2#1) * (Var 23 + Var 26 / Num (2#1)) / (Site 0 * Site 0 * Site 0);
    Num (2#1) * (Var 23 + Var 26 / Num (2#1)) / (Site 0 * Site 0 * Site 0);
    Num (2#1) * (Var 23 + Var 26 / Num (2#1)) / (Site 0 * Site 0 * Site 0) - Num (1#2) / (Site 0 * Site 0)];
    [Num (2#1) * (Var 23 + Var 26 / Num (2#1)) / (Site 0 * Site 0 * Site 0);
    Num (2#1) * (Var 23 + Var 26 / Num (2#1)) / (Site 0 * Site 0 * Site 0);
    Num (2#1) * (Var 23 + Var 26 / Num (2#1)) / (Site 0 * Site 0 * Site 0);
    Num (2#1) * (Var 23 + Var 26 / Num (2#1)) / (Site 0 * Site 0 * Site 0) - Num (1#1) / (Site 0 * Site 0);
    Num (2#1) * (Var 23 + Var 26 / Num (2#1)) / (Site 0 * Site 0 * Site 0);
    Num (2#1) * (Var 23 + Var 26 / Num (2#1)) / (Site 0 * Site 0 * Site 0);
    Num (2#1) * (Var 23 + Var 26 / Num (2#1)) / (Site 0 * Site 0 * Site 0) - Num (1#2) / (Site 0 * Site 0)];
    [Num (2#1) * (Var 23 + Var 26 / Num (2#1)) / (Site 0 * Site 0 * Site 0) - Num (1#2) / (Site 0 * Site 0);
    Num (2#1) * (Var 23 + Var 26 / Num (2#1)) / (Site 0 * Site 0 * Site 0) - Num (1#2) / (Site 0 * Site 0);
    Num (2#1) * (Var 23 + Var 26 / Num (2#1)) / (Site 0 * Site 0 * Site 0) - Num (1#2) / (Site 0 * Site 0);
    Num (2#1) * (Var 23 + Var 26 / Num (2#1)) / (Site 0 * Site 0 * Site 0) - Num (1#1) / (Site 0 * Site 0) - Num (1#2) / (Site 0 * Site 0);
    Num (2#1) * (Var 23 + Var 26 / Num (2#1)) / (Site 0 * Site 0 * Site 0) - Num (1#2) / (Site 0 * Site 0);
    Num (2#1) * (Var 23 + Var 26 / Num (2#1)) / (Site 0 * Site 0 * Site 0) - Num (1#2) / (Site 0 * Site 0);
    Num (2#1) * (Var 23 + Var 26 / Num (2#1)) / (Site 0 * Site 0 * Site 0) - Num (1#2) / (Site 0 * Site 0) - Num (1#2) / (Site 0 * Site 0)]];
    [[Num (2#1) * (Var 24 - Var 26 / Num (2#1)) / (Site 0 * Site 0 * Site 0);
    Num (2#1) * (Var 24 - Var 26 / Num (2#1)) / (Site 0 * Site 0 * Site 0);
    Num (2#1) * (Var 24 - Var 26 / Num (2#1)) / (Site 0 * Site 0 * Site 0);
    Num (2#1) * (Var 24 - Var 26 / Num (2#1)) / (Site 0 * Site 0 * Site 0);
    Num (2#1) * (Var 24 - Var 26 / Num (2#1)) / (Site 0 * Site 0 * Site 0) - Num (1#1) / (Site 0 * Site 0);
    Num (2#1) * (Var 24 - Var 26 / Num (2#1)) / (Site 0 * Site 0 * Site 0);
    Num (2#1) * (Var 24 - Var 26 / Num (2#1)) / (Site 0 * Site 0 * Site 0) + Num (1#2) / (Site 0 * Site 0)];
    [Num (2#1) * (Var 24 - Var 26 / Num (2#1)) / (Site 0 * Site 0 * Site 0);
    Num (2#1) * (Var 24 - Var 26 / Num (2#1)) / (Site 0 * Site 0 * Site 0);
    Num (2#1) * (Var 24 - Var 26 / Num (2#1)) / (Site 0 * Site 0 * Site 0);
    Num (2#1) * (Var 24 - Var 26 / Num (2#1)) / (Site 0 * Site 0 * Site 0);
    Num (2#1) * (Var 24 - Var 26 / Num (2#1)) / (Site 0 * Site 0 * Site 0) - Num (1#1) / (Site 0 * Site 0);
    Num (2#1) * (Var 24 - Var 26 / Num (2#1)) / (Site 0 * Site 0 * Site 0);
    Num (2#1) * (Var 24 - Var 26 / Num (2#1)) / (Site 0 * Site 0 * Site 0) + Num (1#2) / (Site 0 * Site 0)];
    [Num (2#1) * (Var 24 - Var 26 / Num (2#1)) / (Site 0 * Site 0 * Site 0);
    Num (2#1) * (Var 24 - Var 26 / Num (2#1)) / (Site 0 * Site 0 * Site 0);
    Num (2#1) * (Var 24 - Var 26 / Num (2#1)) / (Site 0 * Site 0 * Site 0);
    Num (2#1) * (Var 24 - Var 26 / Num (2#1)) / (Site 0 * Site 0 * Site 0);
    Num (2#1) * (Var 24 - Var 26 / Num (2#1)) / (Site 0 * Site 0 * Site 0) - Num (1#1) / (Site 0 * Site 0);
    Num (2#1) * (Var 24 - Var 26 / Num (2#1)) / (Site 0 * Site 0 * Site 0);
    Num (2#1) * (Var 24 - Var 26 / Num (2#1)) / (Site 0 * Site 0 * Site 0) + Num (1#2) / (Site 0 * Site 0)];
    [Num (2#1) * (Var 24 - Var 26 / Num (2#1)) / (Site 0 * Site 0 * Site 0);
    Num (2#1) * (Var 24 - Var 26 / Num (2#1)) / (Site 0 * Site 0 * Site 0);
    Num (2#1) * (Var 24 - Var 26 / Num (2#1)) / (Site 0 * Site 0 * Site 0);
    Num (2#1) * (Var 24 - Var 26 / Num (2#1)) / (Site 0 * Site 0 * Site 0);
    Num (2#1) * (Var 24 - Var 26 / Num (2#1)) / (Site 0 * Site 0 * Site 0) - Num (1#1) / (Site 0 * Site 0);
    Num (2#1) * (Var 24 - Var 26 / Num (2#1)) / (Site 0 * Site 0 * Site 0);
    Num (2#1) * (Var 24 - Var 26 / Num (2#1)) / (Site 0 * Site 0 * Site 0) + Num (1#2) / (Site 0 * Site 0)];
    [Num (2#1) * (Var 24 - Var 26 / Num (2#1)) / (Site 0 * Site 0 * Site 0) - Num (1#1) / (Site 0 * Site 0);
    Num (2#1) * (Var 24 - Var 26 / Num (2#1)) / (Site 0 * Site 0 * Site 0) - Num (1#1) / (Site 0 * Site 0);
    Num (2#1) * (Var 24 - Var 26 / Num (2#1)) / (Site 0 * Site 0 * Site 0) - Num (1#1) / (Site 0 * Site 0);
    Num (2#1) * (Var 24 - Var 26 / Num (2#1)) / (Site 0 * Site 0 * Site 0) - Num (1#1) / (Site 0 * Site 0);
    Num (2#1) * (Var 24 - Var 26 / Num (2#1)) / (Site 0 * Site 0 * Site 0) - Num (1#1) / (Site 0 * Site 0) - Num (1#1) / (Site 0 * Site 0);
    Num (2#1) * (Var 24 - Var 26 / Num (2#1)) / (Site 0 * Site 0 * Site 0) - Num (1#1) / (Site 0 * Site 0);
    Num (2#1) * (Var 24 - Var 26 / Num (2#1)) / (Site 0 * Site 0 * Site 0) - Num (1#1) / (Site 0 * Site 0) + Num (1#2) / (Site 0 * Site 0)];
    [Num (2#1) * (Var 24 - Var 26 / Num (2#1)) / (Site 0 * Site 0 * Site 0);
    Num (2#1) * (Var 24 - Var 26 / Num (2#1)) / (Site 0 * Site 0 * Site 0);
    Num (2#1) * (Var 24 - Var 26 / Num (2#1)) / (Site 0 * Site 0 * Site 0);
    Num (2#1) * (Var 24 - Var 26 / Num (2#1)) / (Site 0 * Site 0 * Site 0);
    Num (2#1) * (Var 24 - Var 26 / Num (2#1)) / (Site 0 * Site 0 * Site 0) - Num (1#1) / (Site 0 * Site 0);
    Num (2#1) * (Var 24 - Var 26 / Num (2#1)) / (Site 0 * Site 0 * Site 0);
    Num (2#1) * (Var 24 - Var 26 / Num (2#1)) / (Site 0 * Site 0 * Site 0) + Num (1#2) / (Site 0 * Site 0)];
    [Num (2#1) * (Var 24 - Var 26 / Num (2#1)) / (Site 0 * Site 0 * Site 0) + Num (1#2) / (Site 0 * Site 0);
    Num (2#1) * (Var 24 - Var 26 / Num (2#1)) / (Site 0 * Site 0 * Site 0) + Num (1#2) / (Site 0 * Site 0);
    Num (2#1) * (Var 24 - Var 26 / Num (2#1)) / (Site 0 * Site 0 * Site 0) + Num (1#2) / (Site 0 * Site 0);
    Num (2#1) * (Var 24 - Var 26 / Num (2#1)) / (Site 0 * Site 0 * Site 0) + Num (1#2) / (Site 0 * Site 0);
    Num (2#1) * (Var 24 - Var 26 / Num (2#1)) / (Site 0 * Site 0 * Site 0) - Num (1#1) / (Site 0 * Site 0) + Num (1#2) / (Site 0 * Site 0);
    Num (2#1) * (Var 24 - Var 26 / Num (2#1)) / (Site 0 * Site 0 * Site 0) + Num (1#2) / (Site 0 * Site 0);
    Num (2#1) * (Var 24 - Var 26 / Num (2#1)) / (Site 0 * Site 0 * Site 0) + Num (1#2) / (Site 0 * Site 0) + Num (1#2) / (Site 0 * Site 0)]];
    [[Num (2#1) * (Var 25 + Var 26 / Num (2#1)) / (Site 0 * Site 0 * Site 0);
    Num (2#1) * (Var 25 + Var 26 / Num (2#1)) / (Site 0 * Site 0 * Site 0);
    Num (2#1) * (Var 25 + Var 26 / Num (2#1)) / (Site 0 * Site 0 * Site 0);
    Num (2#1) * (Var 25 + Var 26 / Num (2#1)) / (Site 0 * Site 0 * Site 0);
    Num (2#1) * (Var 25 + Var 26 / Num (2#1)) / (Site 0 * Site 0 * Site 0);
    Num (2#1) * (Var 25 + Var 26 / Num (2#1)) / (Site 0 * Site 0 * Site 0) - Num (1#1) / (Site 0 * Site 0);
    Num (2#1) * (Var 25 + Var 26 / Num (2#1)) / (Site 0 * Site 0 * Site 0) - Num (1#2) / (Site 0 * Site 0)];
    [Num (2#1) * (Var 25 + Var 26 / Num (2#1)) / (Site 0 * Site 0 * Site 0);
    Num (2#1) * (Var 25 + Var 26 / Num (2#1)) / (Site 0 * Site 0 * Site 0);
    Num (2#1) * (Var 25 + Var 26 / Num (2#1)) / (Site 0 * Site 0 * Site 0);
    Num (2#1) * (Var 25 + Var 26 / Num (2#1)) / (Site 0 * Site 0 * Site 0);
    Num (2#1) * (Var 25 + Var 26 / Num (2#1)) / (Site 0 * Site 0 * Site 0);
    Num (2#1) * (Var 25 + Var 26 / Num (2#1)) / (Site 0 * Site 0 * Site 0) - Num (1#1) / (Site 0 * Site 0);
    Num (2#1) * (Var 25 + Var 26 / Num (2#1)) / (Site 0 * Site 0 * Site 0) - Num (1#2) / (Site 0 * Site 0)];
    [Num (2#1) * (Var 25 + Var 26 / Num (2#1)) / (Site 0 * Site 0 * Site 0);
    Num (2#1) * (Var 25 + Var 26 / Num (2#1)) / (Site 0 * Site 0 * Site 0);
    Num (2#1) * (Var 25 + Var 26 / Num (2#1)) / (Site 0 * Site 0 * Site 0);
    Num (2#1) * (Var 25 + Var 26 / Num (2#1)) / (Site 0 * Site 0 * Site 0);
    Num (2#1) * (Var 25 + Var 26 / Num (2#1)) / (Site 0 * Site 0 * Site 0);
    Num (2#1) * (Var 25 + Var 26 / Num (2#1)) / (Site 0 * Site 0 * Site 0) - Num (1#1) / (Site 0 * Site 0);
    Num (2#1) * (Var 25 + Var 26 / Num (2#1)) / (Site 0 * Site 0 * Site 0) - Num (1#2) / (Site 0 * Site 0)];
    [Num (2#1) * (Var 25 + Var 26 / Num (2#1)) / (Site 0 * Site 0 * Site 0);
    Num (2#1) * (Var 25 + Var 26 / Num (2#1)) / (Site 0 * Site 0 * Site 0);
    Num (2#1) * (Var 25 + Var 26 / Num (2#1)) / (Site 0 * Site 0 * Site 0);
    Num (2#1) * (Var 25 + Var 26 / Num (2#1)) / (Site 0 * Site 0 * Site 0);
    Num (2#1) * (Var 25 + Var 26 / Num (2#1)) / (Site 0 * Site 0 * Site 0);
    Num (2#1) * (Var 25 + Var 26 / Num (2#1)) / (Site 0 * Site 0 * Site 0) - Num (1#1) / (Site 0 * Site 0);
    Num (2#1) * (Var 25 + Var 26 / Num (2#1)) / (Site 0 * Site 0 * Site 0) - Num (1#2) / (Site 0 * Site 0)];
    [Num (2#1) * (Var 25 + Var 26 / Num (2#1)) / (Site 0 * Site 0 * Site 0);
    Num (2#1) * (Var 25 + Var 26 / Num (2#1)) / (Site 0 * Site 0 * Site 0);
    Num (2#1) * (Var 25 + Var 26 / Num (2#1)) / (Site 0 * Site 0 * Site 0);
    Num (2#1) * (Var 25 + Var 26 / Num (2#1)) / (Site 0 * Site 0 * Site 0);
    Num (2#1) * (Var 25 + Var 26 / Num (2#1)) / (Site 0 * Site 0 * Site 0);
    Num (2#1) * (Var 25 + Var 26 / Num (2#1)) / (Site 0 * Site 0 * Site 0) - Num (1#1) / (Site 0 * Site 0);
    Num (2#1) * (Var 25 + Var 26 / Num (2#1)) / (Site 0 * Site 0 * Site 0) - Num (1#2) / (Site 0 * Site 0)];
    [Num (2#1) * (Var 25 + Var 26 / Num (2#1)) / (Site 0 * Site 0 * Site 0) - Num (1#1) / (Site 0 * Site 0);
    Num (2#1) * (Var 25 + Var 26 / Num (2#1)) / (Site 0 * Site 0 * Site 0) - Num (1#1) / (Site 0 * Site 0);
    Num (2#1) * (Var 25 + Var 26 / Num (2#1)) / (Site 0 * Site 0 * Site 0) - Num (1#1) / (Site 0 * Site 0);
    Num (2#1) * (Var 25 + Var 26 / Num (2#1)) / (Site 0 * Site 0 * Site 0) - Num (1#1) / (Site 0 * Site 0);
    Num (2#1) * (Var 25 + Var 26 / Num (2#1)) / (Site 0 * Site 0 * Site 0) - Num (1#1) / (Site 0 * Site 0);
    Num (2#1) * (Var 25 + Var 26 / Num (2#1)) / (Site 0 * Site 0 * Site 0) - Num (1#1) / (Site 0 * Site 0) - Num (1#1) / (Site 0 * Site 0);
    Num (2#1) * (Var 25 + Var 26 / Num (2#1)) / (Site 0 * Site 0 * Site 0) - Num (1#1) / (Site 0 * Site 0) - Num (1#2) / (Site 0 * Site 0)];
    [Num (2#1) * (Var 25 + Var 26 / Num (2#1)) / (Site 0 * Site 0 * Site 0) - Num (1#2) / (Site 0 * Site 0);
    Num (2#1) * (Var 25 + Var 26 / Num (2#1)) / (Site 0 * Site 0 * Site 0) - Num (1#2) / (Site 0 * Site 0);
    Num (2#1) * (Var 25 + Var 26 / Num (2#1)) / (Site 0 * Site 0 * Site 0) - Num (1#2) / (Site 0 * Site 0);
    Num (2#1) * (Var 25 + Var 26 / Num (2#1)) / (Site 0 * Site 0 * Site 0) - Num (1#2) / (Site 0 * Site 0);
    Num (2#1) * (Var 25 + Var 26 / Num (2#1)) / (Site 0 * Site 0 * Site 0) - Num (1#2) / (Site 0 * Site 0);
    Num (2#1) * (Var 25 + Var 26 / Num (2#1)) / (Site 0 * Site 0 * Site 0) - Num (1#1) / (Site 0 * Site 0) - Num (1#2) / (Site 0 * Site 0);
    Num (2#1) * (Var 25 + Var 26 / Num (2#1)) / (Site 0 * Site 0 * Site 0) - Num (1#2) / (Site 0 * Site 0) - Num (1#2) / (Site 0 * Site 0)]];
    [[Num (2#1) * Var 26 / (Site 0 * Site 0 * Site 0);
    Num (2#1) * Var 26 / (Site 0 * Site 0 * Site 0);
    Num (2#1) * Var 26 / (Site 0 * Site 0 * Site 0);
    Num (2#1) * Var 26 / (Site 0 * Site 0 * Site 0);
    Num (2#1) * Var 26 / (Site 0 * Site 0 * Site 0);
    Num (2#1) * Var 26 / (Site 0 * Site 0 * Site 0);
    Num (2#1) * Var 26 / (Site 0 * Site 0 * Site 0) - Num (1#1) / (Site 0 * Site 0)];
    [Num (2#1) * Var 26 / (Site 0 * Site 0 * Site 0);
    Num (2#1) * Var 26 / (Site 0 * Site 0 * Site 0);
    Num (2#1) * Var 26 / (Site 0 * Site 0 * Site 0);
    Num (2#1) * Var 26 / (Site 0 * Site 0 * Site 0);
    Num (2#1) * Var 26 / (Site 0 * Site 0 * Site 0);
    Num (2#1) * Var 26 / (Site 0 * Site 0 * Site 0);
    Num (2#1) * Var 26 / (Site 0 * Site 0 * Site 0) - Num (1#1) / (Site 0 * Site 0)];
    [Num (2#1) * Var 26 / (Site 0 * Site 0 * Site 0);
    Num (2#1) * Var 26 / (Site 0 * Site 0 * Site 0);
    Num (2#1) * Var 26 / (Site 0 * Site 0 * Site 0);
    Num (2#1) * Var 26 / (Site 0 * Site 0 * Site 0);
    Num (2#1) * Var 26 / (Site 0 * Site 0 * Site 0);
    Num (2#1) * Var 26 / (Site 0 * Site 0 * Site 0);
    Num (2#1) * Var 26 / (Site 0 * Site 0 * Site 0) - Num (1#1) / (Site 0 * Site 0)];
    [Num (2#1) * Var 26 / (Site 0 * Site 0 * Site 0);
    Num (2#1) * Var 26 / (Site 0 * Site 0 * Site 0);
    Num (2#1) * Var 26 / (Site 0 * Site 0 * Site 0);
    Num (2#1) * Var 26 / (Site 0 * Site 0 * Site 0);
    Num (2#1) * Var 26 / (Site 0 * Site 0 * Site 0);
    Num (2#1) * Var 26 / (Site 0 * Site 0 * Site 0);
    Num (2#1) * Var 26 / (Site 0 * Site 0 * Site 0) - Num (1#1) / (Site 0 * Site 0)];
    [Num (2#1) * Var 26 / (Site 0 * Site 0 * Site 0);
    Num (2#1) * Var 26 / (Site 0 * Site 0 * Site 0);
    Num (2#1) * Var 26 / (Site 0 * Site 0 * Site 0);
    Num (2#1) * Var 26 / (Site 0 * Site 0 * Site 0);
    Num (2#1) * Var 26 / (Site 0 * Site 0 * Site 0);
    Num (2#1) * Var 26 / (Site 0 * Site 0 * Site 0);
    Num (2#1) * Var 26 / (Site 0 * Site 0 * Site 0) - Num (1#1) / (Site 0 * Site 0)];
    [Num (2#1) * Var 26 / (Site 0 * Site 0 * Site 0);
    Num (2#1) * Var 26 / (Site 0 * Site 0 * Site 0);
    Num (2#1) * Var 26 / (Site 0 * Site 0 * Site 0);
    Num (2#1) * Var 26 / (Site 0 * Site 0 * Site 0);
    Num (2#1) * Var 26 / (Site 0 * Site 0 * Site 0);
    Num (2#1) * Var 26 / (Site 0 * Site 0 * Site 0);
    Num (2#1) * Var 26 / (Site 0 * Site 0 * Site 0) - Num (1#1) / (Site 0 * Site 0)];
    [Num (2#1) * Var 26 / (Site 0 * Site 0 * Site 0) - Num (1#1) / (Site 0 * Site 0);
    Num (2#1) * Var 26 / (Site 0 * Site 0 * Site 0) - Num (1#1) / (Site 0 * Site 0);
    Num (2#1) * Var 26 / (Site 0 * Site 0 * Site 0) - Num (1#1) / (Site 0 * Site 0);
    Num (2#1) * Var 26 / (Site 0 * Site 0 * Site 0) - Num (1#1) / (Site 0 * Site 0);
    Num (2#1) * Var 26 / (Site 0 * Site 0 * Site 0) - Num (1#1) / (Site 0 * Site 0);
    Num (2#1) * Var 26 / (Site 0 * Site 0 * Site 0) - Num (1#1) / (Site 0 * Site 0);
    Num (2#1) * Var 26 / (Site 0 * Site 0 * Site 0) - Num (1#1) / (Site 0 * Site 0) - Num (1#1) / (Site 0 * Site 0)]];
    [[Num (2#1) * Var 21 / (Site 0 * Site 0 * Site 0);
    Num (2#1) * Var 21 / (Site 0 * Site 0 * Site 0) - Num (1#1) / (Site 0 * Site 0);
    Num (2#1) * Var 21 / (Site 0 * Site 0 * Site 0);
    Num (2#1) * Var 21 / (Site 0 * Site 0 * Site 0);
    Num (2#1) * Var 21 / (Site 0 * Site 0 * Site 0);
    Num (2#1) * Var 21 / (Site 0 * Site 0 * Site 0);
    Num (2#1) * Var 21 / (Site 0 * Site 0 * Site 0)];
    [Num (2#1) * Var 21 / (Site 0 * Site 0 * Site 0) - Num (1#1) / (Site 0 * Site 0);
    Num (2#1) * Var 21 / (Site 0 * Site 0 * Site 0) - Num (1#1) / (Site 0 * Site 0) - Num (1#1) / (Site 0 * Site 0);
    Num (2#1) * Var 21 / (Site 0 * Site 0 * Site 0) - Num (1#1) / (Site 0 * Site 0);
    Num (2#1) * Var 21 / (Site 0 * Site 0 * Site 0) - Num (1#1) / (Site 0 * Site 0);
    Num (2#1) * Var 21 / (Site 0 * Site 0 * Site 0) - Num (1#1) / (Site 0 * Site 0);
    Num (2#1) * Var 21 / (Site 0 * Site 0 * Site 0) - Num (1#1) / (Site 0 * Site 0);
    Num (2#1) * Var 21 / (Site 0 * Site 0 * Site 0) - Num (1#1) / (Site 0 * Site 0)];
    [Num (2#1) * Var 21 / (Site 0 * Site 0 * Site 0);
    Num (2#1) * Var 21 / (Site 0 * Site 0 * Site 0) - Num (1#1) / (Site 0 * Site 0);
    Num (2#1) * Var 21 / (Site 0 * Site 0 * Site 0);
    Num (2#1) * Var 21 / (Site 0 * Site 0 * Site 0);
    Num (2#1) * Var 21 / (Site 0 * Site 0 * Site 0);
    Num (2#1) * Var 21 / (Site 0 * Site 0 * Site 0);
    Num (2#1) * Var 21 / (Site 0 * Site 0 * Site 0)];
    [Num (2#1) * Var 21 / (Site 0 * Site 0 * Site 0);
    Num (2#1) * Var 21 / (Site 0 * Site 0 * Site 0) - Num (1#1) / (Site 0 * Site 0);
    Num (2#1) * Var 21 / (Site 0 * Site 0 * Site 0);
    Num (2#1) * Var 21 / (Site 0 * Site 0 * Site 0);
    Num (2#1) * Var 21 / (Site 0 * Site 0 * Site 0);
    Num (2#1) * Var 21 / (Site 0 * Site 0 * Site 0);
    Num (2#1) * Var 21 / (Site 0 * Site 0 * Site 0)];
    [Num (2#1) * Var 21 / (Site 0 * Site 0 * Site 0);
    Num (2#1) * Var 21 / (Site 0 * Site 0 * Site 0) - Num (1#1) / (Site 0 * Site 0);
    Num (2#1) * Var 21 / (Site 0 * Site 0 * Site 0);
    Num (2#1) * Var 21 / (Site 0 * Site 0 * Site 0);
    Num (2#1) * Var 21 / (Site 0 * Site 0 * Site 0);
    Num (2#1) * Var 21 / (Site 0 * Site 0 * Site 0);
    Num (2#1) * Var 21 / (Site 0 * Site 0 * Site 0)];
    [Num (2#1) * Var 21 / (Site 0 * Site 0 * Site 0);
    Num (2#1) * Var 21 / (Site 0 * Site 0 * Site 0) - Num (1#1) / (Site 0 * Site 0);
    Num (2#1) * Var 21 / (Site 0 * Site 0 * Site 0);
    Num (2#1) * Var 21 / (Site 0 * Site 0 * Site 0);
    Num (2#1) * Var 21 / (Site 0 * Site 0 * Site 0);
    Num (2#1) * Var 21 / (Site 0 * Site 0 * Site 0);
    Num (2#1) * Var 21 / (Site 0 * Site 0 * Site 0)];
    [Num (2#1) * Var 21 / (Site 0 * Site 0 * Site 0);
    Num (2#1) * Var 21 / (Site 0 * Site 0 * Site 0) - Num (1#1) / (Site 0 * Site 0);
    Num (2#1) * Var 21 / (Site 0 * Site 0 * Site 0);
    Num (2#1) * Var 21 / (Site 0 * Site 0 * Site 0);
    Num (2#1) * Var 21 / (Site 0 * Site 0 * Site 0);
    Num (2#1) * Var 21 / (Site 0 * Site 0 * Site 0);
    Num (2#1) * Var 21 / (Site 0 * Site 0 * Site 0)]]].
(** sources/orthopyroxene.c 4117-4400: conOpx, inpMask SECOND, output d3m[i][j][k][l] *)
Definition Opx_con_d3m :=
  [[[[Num (-6#1) * Var 22 / (Site 0 * Site 0 * Site 0 * Site 0);
    Num (-6#1) * Var 22 / (Site 0 * Site 0 * Site 0 * Site 0);
    Num (-6#1) * Var 22 / (Site 0 * Site 0 * Site 0 * Site 0) + Num (2#1) / (Site 0 * Site 0 * Site 0);
    Num (-6#1) * Var 22 / (Site 0 * Site 0 * Site 0 * Site 0);
    Num (-6#1) * Var 22 / (Site 0 * Site 0 * Site 0 * Site 0);
    Num (-6#1) * Var 22 / (Site 0 * Site 0 * Site 0 * Site 0);
    Num (-6#1) * Var 22 / (Site 0 * Site 0 * Site 0 * Site 0)];
    [Num (-6#1) * Var 22 / (Site 0 * Site 0 * Site 0 * Site 0);
    Num (-6#1) * Var 22 / (Site 0 * Site 0 * Site 0 * Site 0);
    Num (-6#1) * Var 22 / (Site 0 * Site 0 * Site 0 * Site 0) + Num (2#1) / (Site 0 * Site 0 * Site 0);
    Num (-6#1) * Var 22 / (Site 0 * Site 0 * Site 0 * Site 0);
    Num (-6#1) * Var 22 / (Site 0 * Site 0 * Site 0 * Site 0);
    Num (-6#1) * Var 22 / (Site 0 * Site 0 * Site 0 * Site 0);
    Num (-6#1) * Var 22 / (Site 0 * Site 0 * Site 0 * Site 0)];
    [Num (-6#1) * Var 22 / (Site 0 * Site 0 * Site 0 * Site 0) + Num (2#1) / (Site 0 * Site 0 * Site 0);
    Num (-6#1) * Var 22 / (Site 0 * Site 0 * Site 0 * Site 0) + Num (2#1) / (Site 0 * Site 0 * Site 0);
    Num (-6#1) * Var 22 / (Site 0 * Site 0 * Site 0 * Site 0) + Num (2#1) / (Site 0 * Site 0 * Site 0) + Num (2#1) / (Site 0 * Site 0 * Site 0);
    Num (-6#1) * Var 22 / (Site 0 * Site 0 * Site 0 * Site 0) + Num (2#1) / (Site 0 * Site 0 * Site 0);
    Num (-6#1) * Var 22 / (Site 0 * Site 0 * Site 0 * Site 0) + Num (2#1) / (Site 0 * Site 0 * Site 0);
    Num (-6#1) * Var 22 / (Site 0 * Site 0 * Site 0 * Site 0) + Num (2#1) / (Site 0 * Site 0 * Site 0);
    Num (-6#1) * Var 22 / (Site 0 * Site 0 * Site 0 * Site 0) + Num (2#1) / (Site 0 * Site 0 * Site 0)];
    [Num (-6#1) * Var 22 / (Site 0 * Site 0 * Site 0 * Site 0);
    Num (-6#1) * Var 22 / (Site 0 * Site 0 * Site 0 * Site 0);
    Num (-6#1) * Var 22 / (Site 0 * Site 0 * Site 0 * Site 0) + Num (2#1) / (Site 0 * Site 0 * Site 0);
    Num (-6#1) * Var 22 / (Site 0 * Site 0 * Site 0 * Site 0);
    Num (-6#1) * Var 22 / (Site 0 * Site 0 * Site 0 * Site 0);
    Num (-6#1) * Var 22 / (Site 0 * Site 0 * Site 0 * Site 0);
    Num (-6#1) * Var 22 / (Site 0 * Site 0 * Site 0 * Site 0)];
    [Num (-6#1) * Var 22 / (Site 0 * Site 0 * Site 0 * Site 0);
    Num (-6#1) * Var 22 / (Site 0 * Site 0 * Site 0 * Site 0);
    Num (-6#1) * Var 22 / (Site 0 * Site 0 * Site 0 * Site 0) + Num (2#1) / (Site 0 * Site 0 * Site 0);
    Num (-6#1) * Var 22 / (Site 0 * Site 0 * Site 0 * Site 0);
    Num (-6#1) * Var 22 / (Site 0 * Site 0 * Site 0 * Site 0);
    Num (-6#1) * Var 22 / (Site 0 * Site 0 * Site 0 * Site 0);
    Num (-6#1) * Var 22 / (Site 0 * Site 0 * Site 0 * Site 0)];
    [Num (-6#1) * Var 22 / (Site 0 * Site 0 * Site 0 * Site 0);
    Num (-6#1) * Var 22 / (Site 0 * Site 0 * Site 0 * Site 0);
    Num (-6#1) * Var 22 / (Site 0 * Site 0 * Site 0 * Site 0) + Num (2#1) / (Site 0 * Site 0 * Site 0);
    Num (-6#1) * Var 22 / (Site 0 * Site 0 * Site 0 * Site 0);
    Num (-6#1) * Var 22 / (Site 0 * Site 0 * Site 0 * Site 0);
    Num (-6#1) * Var 22 / (Site 0 * Site 0 * Site 0 * Site 0);
    Num (-6#1) * Var 22 / (Site 0 * Site 0 * Site 0 * Site 0)];
    [Num (-6#1) * Var 22 / (Site 0 * Site 0 * Site 0 * Site 0);
    Num (-6#1) * Var 22 / (Site 0 * Site 0 * Site 0 * Site 0);
    Num (-6#1) * Var 22 / (Site 0 * Site 0 * Site 0 * Site 0) + Num (2#1) / (Site 0 * Site 0 * Site 0);
    Num (-6#1) * Var 22 / (Site 0 * Site 0 * Site 0 * Site 0);
    Num (-6#1) * Var 22 / (Site 0 * Site 0 * Site 0 * Site 0);
    Num (-6#1) * Var 22 / (Site 0 * Site 0 * Site 0 * Site 0);
    Num (-6#1) * Var 22 / (Site 0 * Site 0 * Site 0 * Site 0)]];
    [[Num (-6#1) * Var 22 / (Site 0 * Site 0 * Site 0 * Site 0);
    Num (-6#1) * Var 22 / (Site 0 * Site 0 * Site 0 * Site 0);
    Num (-6#1) * Var 22 / (Site 0 * Site 0 * Site 0 * Site 0) + Num (2#1) / (Site 0 * Site 0 * Site 0);
    Num (-6#1) * Var 22 / (Site 0 * Site 0 * Site 0 * Site 0);
    Num (-6#1) * Var 22 / (Site 0 * Site 0 * Site 0 * Site 0);
    Num (-6#1) * Var 22 / (Site 0 * Site 0 * Site 0 * Site 0);
    Num (-6#1) * Var 22 / (Site 0 * Site 0 * Site 0 * Site 0)];
    [Num (-6#1) * Var 22 / (Site 0 * Site 0 * Site 0 * Site 0);
    Num (-6#1) * Var 22 / (Site 0 * Site 0 * Site 0 * Site 0);
    Num (-6#1) * Var 22 / (Site 0 * Site 0 * Site 0 * Site 0) + Num (2#1) / (Site 0 * Site 0 * Site 0);
    Num (-6#1) * Var 22 / (Site 0 * Site 0 * Site 0 * Site 0);
    Num (-6#1) * Var 22 / (Site 0 * Site 0 * Site 0 * Site 0);
    Num (-6#1) * Var 22 / (Site 0 * Site 0 * Site 0 * Site 0);
    Num (-6#1) * Var 22 / (Site 0 * Site 0 * Site 0 * Site 0)];
    [Num (-6#1) * Var 22 / (Site 0 * Site 0 * Site 0 * Site 0) + Num (2#1) / (Site 0 * Site 0 * Site 0);
    Num (-6#1) * Var 22 / (Site 0 * Site 0 * Site 0 * Site 0) + Num (2#1) / (Site 0 * Site 0 * Site 0);
    Num (-6#1) * Var 22 / (Site 0 * Site 0 * Site 0 * Site 0) + Num (2#1) / (Site 0 * Site 0 * Site 0) + Num (2#1) / (Site 0 * Site 0 * Site 0);
    Num (-6#1) * Var 22 / (Site 0 * Site 0 * Site 0 * Site 0) + Num (2#1) / (Site 0 * Site 0 * Site 0);
    Num (-6#1) * Var 22 / (Site 0 * Site 0 * Site 0 * Site 0) + Num (2#1) / (Site 0 * Site 0 * Site 0);
    Num (-6#1) * Var 22 / (Site 0 * Site 0 * Site 0 * Site 0) + Num (2#1) / (Site 0 * Site 0 * Site 0);
    Num (-6#1) * Var 22 / (Site 0 * Site 0 * Site 0 * Site 0) + Num (2#1) / (Site 0 * Site 0 * Site 0)];
    [Num (-6#1) * Var 22 / (Site 0 * Site 0 * Site 0 * Site 0);
    Num (-6#1) * Var 22 / (Site 0 * Site 0 * Site 0 * Site 0);
    Num (-6#1) * Var 22 / (Site 0 * Site 0 * Site 0 * Site 0) + Num (2#1) / (Site 0 * Site 0 * Site 0);
    Num (-6#1) * Var 22 / (Site 0 * Site 0 * Site 0 * Site 0);
    Num (-6#1) * Var 22 / (Site 0 * Site 0 * Site 0 * Site 0);
    Num (-6#1) * Var 22 / (Site 0 * Site 0 * Site 0 * Site 0);
    Num (-6#1) * Var 22 / (Site 0 * Site 0 * Site 0 * Site 0)];
    [Num (-6#1) * Var 22 / (Site 0 * Site 0 * Site 0 * Site 0);
    Num (-6#1) * Var 22 / (Site 0 * Site 0 * Site 0 * Site 0);
    Num (-6#1) * Var 22 / (Site 0 * Site 0 * Site 0 * Site 0) + Num (2#1) / (Site 0 * Site 0 * Site 0);
    Num (-6#1) * Var 22 / (Site 0 * Site 0 * Site 0 * Site 0);
    Num (-6#1) * Var 22 / (Site 0 * Site 0 * Site 0 * Site 0);
    Num (-6#1) * Var 22 / (Site 0 * Site 0 * Site 0 * Site 0);
    Num (-6#1) * Var 22 / (Site 0 * Site 0 * Site 0 * Site 0)];
    [Num (-6#1) * Var 22 / (Site 0 * Site 0 * Site 0 * Site 0);
    Num (-6#1) * Var 22 / (Site 0 * Site 0 * Site 0 * Site 0);
    Num (-6#1) * Var 22 / (Site 0 * Site 0 * Site 0 * Site 0) + Num (2#1) / (Site 0 * Site 0 * Site 0);
    Num (-6#1) * Var 22 / (Site 0 * Site 0 * Site 0 * Site 0);
    Num (-6#1) * Var 22 / (Site 0 * Site 0 * Site 0 * Site 0);
    Num (-6#1) * Var 22 / (Site 0 * Site 0 * Site 0 * Site 0);
    Num (-6#1) * Var 22 / (Site 0 * Site 0 * Site 0 * Site 0)];
    [Num (-6#1) * Var 22 / (Site 0 * Site 0 * Site 0 * Site 0);
    Num (-6#1) * Var 22 / (Site 0 * Site 0 * Site 0 * Site 0);
    Num (-6#1) * Var 22 / (Site 0 * Site 0 * Site 0 * Site 0) + Num (2#1) / (Site 0 * Site 0 * Site 0);
    Num (-6#1) * Var 22 / (Site 0 * Site 0 * Site 0 * Site 0);
    Num (-6#1) * Var 22 / (Site 0 * Site 0 * Site 0 * Site 0);
    Num (-6#1) * Var 22 / (Site 0 * Site 0 * Site 0 * Site 0);
    Num (-6#1) * Var 22 / (Site 0 * Site 0 * Site 0 * Site 0)]];
    [[Num (-6#1) * Var 22 / (Site 0 * Site 0 * Site 0 * Site 0) + Num (2#1) / (Site 0 * Site 0 * Site 0);
    Num (-6#1) * Var 22 / (Site 0 * Site 0 * Site 0 * Site 0) + Num (2#1) / (Site 0 * Site 0 * Site 0);
    Num (-6#1) * Var 22 / (Site 0 * Site 0 * Site 0 * Site 0) + Num (2#1) / (Site 0 * Site 0 * Site 0) + Num (2#1) / (Site 0 * Site 0 * Site 0);
    Num (-6#1) * Var 22 / (Site 0 * Site 0 * Site 0 * Site 0) + Num (2#1) / (Site 0 * Site 0 * Site 0);
    Num (-6#1) * Var 22 / (Site 0 * Site 0 * Site 0 * Site 0) + Num (2#1) / (Site 0 * Site 0 * Site 0);
    Num (-6#1) * Var 22 / (Site 0 * Site 0 * Site 0 * Site 0) + Num (2#1) / (Site 0 * Site 0 * Site 0);
    Num (-6#1) * Var 22 / (Site 0 * Site 0 * Site 0 * Site 0) + Num (2#1) / (Site 0 * Site 0 * Site 0)];
    [Num (-6#1) * Var 22 / (Site 0 * Site 0 * Site 0 * Site 0) + Num (2#1) / (Site 0 * Site 0 * Site 0);
    Num (-6#1) * Var 22 / (Site 0 * Site 0 * Site 0 * Site 0) + Num (2#1) / (Site 0 * Site 0 * Site 0);
    Num (-6#1) * Var 22 / (Site 0 * Site 0 * Site 0 * Site 0) + Num (2#1) / (Site 0 * Site 0 * Site 0) + Num (2#1) / (Site 0 * Site 0 * Site 0);
    Num (-6#1) * Var 22 / (Site 0 * Site 0 * Site 0 * Site 0) + Num (2#1) / (Site 0 * Site 0 * Site 0);
    Num (-6#1) * Var 22 / (Site 0 * Site 0 * Site 0 * Site 0) + Num (2#1) / (Site 0 * Site 0 * Site 0);
    Num (-6#1) * Var 22 / (Site 0 * Site 0 * Site 0 * Site 0) + Num (2#1) / (Site 0 * Site 0 * Site 0);
    Num (-6#1) * Var 22 / (Site 0 * Site 0 * Site 0 * Site 0) + Num (2#1) / (Site 0 * Site 0 * Site 0)];
    [Num (-6#1) * Var 22 / (Site 0 * Site 0 * Site 0 * Site 0) + Num (2#1) / (Site 0 * Site 0 * Site 0) + Num (2#1) / (Site 0 * Site 0 * Site 0);
    Num (-6#1) * Var 22 / (Site 0 * Site 0 * Site 0 * Site 0) + Num (2#1) / (Site 0 * Site 0 * Site 0) + Num (2#1) / (Site 0 * Site 0 * Site 0);
    Num (-6#1) * Var 22 / (Site 0 * Site 0 * Site 0 * Site 0) + Num (2#1) / (Site 0 * Site 0 * Site 0) + Num (2#1) / (Site 0 * Site 0 * Site 0) + Num (2#1) / (Site 0 * Site 0 * Site 0);
    Num (-6#1) * Var 22 / (Site 0 * Site 0 * Site 0 * Site 0) + Num (2#1) / (Site 0 * Site 0 * Site 0) + Num (2#1) / (Site 0 * Site 0 * Site 0);
    Num (-6#1) * Var 22 / (Site 0 * Site 0 * Site 0 * Site 0) + Num (2#1) / (Site 0 * Site 0 * Site 0) + Num (2#1) / (Site 0 * Site 0 * Site 0);
    Num (-6#1) * Var 22 / (Site 0 * Site 0 * Site 0 * Site 0) + Num (2#1) / (Site 0 * Site 0 * Site 0) + Num (2#1) / (Site 0 * Site 0 * Site 0);
    Num (-6#1) * Var 22 / (Site 0 * Site 0 * Site 0 * Site 0) + Num (2#1) / (Site 0 * Site 0 * Site 0) + Num (2#1) / (Site 0 * Site 0 * Site 0)];
    [Num (-6#1) * Var 22 / (Site 0 * Site 0 * Site 0 * Site 0) + Num (2#1) / (Site 0 * Site 0 * Site 0);
    Num (-6#1) * Var 22 / (Site 0 * Site 0 * Site 0 * Site 0) + Num (2#1) / (Site 0 * Site 0 * Site 0);
    Num (-6#1) * Var 22 / (Site 0 * Site 0 * Site 0 * Site 0) + Num (2#1) / (Site 0 * Site 0 * Site 0) + Num (2#1) / (Site 0 * Site 0 * Site 0);
    Num (-6#1) * Var 22 / (Site 0 * Site 0 * Site 0 * Site 0) + Num (2#1) / (Site 0 * Site 0 * Site 0);
    Num (-6#1) * Var 22 / (Site 0 * Site 0 * Site 0 * Site 0) + Num (2#1) / (Site 0 * Site 0 * Site 0);
    Num (-6#1) * Var 22 / (Site 0 * Site 0 * Site 0 * Site 0) + Num (2#1) / (Site 0 * Site 0 * Site 0);
    Num (-6#1) * Var 22 / (Site 0 * Site 0 * Site 0 * Site 0) + Num (2#1) / (Site 0 * Site 0 * Site 0)];
    [Num (-6#1) * Var 22 / (Site 0 * Site 0 * Site 0 * Site 0) + Num (2#1) / (Site 0 * Site 0 * Site 0);
    Num (-6#1) * Var 22 / (Site 0 * Site 0 * Site 0 * Site 0) + Num (2#1) / (Site 0 * Site 0 * Site 0);
    Num (-6#1) * Var 22 / (Site 0 * Site 0 * Site 0 * Site 0) + Num (2#1) / (Site 0 * Site 0 * Site 0) + Num (2#1) / (Site 0 * Site 0 * Site 0);
    Num (-6#1) * Var 22 / (Site 0 * Site 0 * Site 0 * Site 0) + Num (2#1) / (Site 0 * Site 0 * Site 0);
    Num (-6#1) * Var 22 / (Site 0 * Site 0 * Site 0 * Site 0) + Num (2#1) / (Site 0 * Site 0 * Site 0);
    Num (-6#1) * Var 22 / (Site 0 * Site 0 * Site 0 * Site 0) + Num (2#1) / (Site 0 * Site 0 * Site 0);
    Num (-6#1) * Var 22 / (Site 0 * Site 0 * Site 0 * Site 0) + Num (2#1) / (Site 0 * Site 0 * Site 0)];
    [Num (-6#1) * Var 22 / (Site 0 * Site 0 * Site 0 * Site 0) + Num (2#1) / (Site 0 * Site 0 * Site 0);
    Num (-6#1) * Var 22 / (Site 0 * Site 0 * Site 0 * Site 0) + Num (2#1) / (Site 0 * Site 0 * Site 0);
    Num (-6#1) * Var 22 / (Site 0 * Site 0 * Site 0 * Site 0) + Num (2#1) / (Site 0 * Site 0 * Site 0) + Num (2#1) / (Site 0 * Site 0 * Site 0);
    Num (-6#1) * Var 22 / (Site 0 * Site 0 * Site 0 * Site 0) + Num (2#1) / (Site 0 * Site 0 * Site 0);
    Num (-6#1) * Var 22 / (Site 0 * Site 0 * Site 0 * Site 0) + Num (2#1) / (Site 0 * Site 0 * Site 0);
    Num (-6#1) * Var 22 / (Site 0 * Site 0 * Site 0 * Site 0) + Num (2#1) / (Site 0 * Site 0 * Site 0);
    Num (-6#1) * Var 22 / (Site 0 * Site 0 * Site 0 * Site 0) + Num (2#1) / (Site 0 * Site 0 * Site 0)];
    [Num (-6#1) * Var 22 / (Site 0 * Site 0 * Site 0 * Site 0) + Num (2#1) / (Site 0 * Site 0 * Site 0);
    Num (-6#1) * Var 22 / (Site 0 * Site 0 * Site 0 * Site 0) + Num (2#1) / (Site 0 * Site 0 * Site 0);
    Num (-6#1) * Var 22 / (Site 0 * Site 0 * Site 0 * Site 0) + Num (2#1) / (Site 0 * Site 0 * Site 0) + Num (2#1) / (Site 0 * Site 0 * Site 0);
    Num (-6#1) * Var 22 / (Site 0 * Site 0 * Site 0 * Site 0) + Num (2#1) / (Site 0 * Site 0 * Site 0);
    Num (-6#1) * Var 22 / (Site 0 * Site 0 * Site 0 * Site 0) + Num (2#1) / (Site 0 * Site 0 * Site 0);
    Num (-6#1) * Var 22 / (Site 0 * Site 0 * Site 0 * Site 0) + Num (2#1) / (Site 0 * Site 0 * Site 0);
    Num (-6#1) * Var 22 / (Site 0 * Site 0 * Site 0 * Site 0) + Num (2#1) / (Site 0 * Site 0 * Site 0)]];
    [[Num (-6#1) * Var 22 / (Site 0 * Site 0 * Site 0 * Site 0);
    Num (-6#1) * Var 22 / (Site 0 * Site 0 * Site 0 * Site 0);
    Num (-6#1) * Var 22 / (Site 0 * Site 0 * Site 0 * Site 0) + Num (2#1) / (Site 0 * Site 0 * Site 0);
    Num (-6#1) * Var 22 / (Site 0 * Site 0 * Site 0 * Site 0);
    Num (-6#1) * Var 22 / (Site 0 * Site 0 * Site 0 * Site 0);
    Num (-6#1) * Var 22 / (Site 0 * Site 0 * Site 0 * Site 0);
    Num (-6#1) * Var 22 / (Site 0 * Site 0 * Site 0 * Site 0)];
    [Num (-6#1) * Var 22 / (Site 0 * Site 0 * Site 0 * Site 0);
    Num (-6#1) * Var 22 / (Site 0 * Site 0 * Site 0 * Site 0);
    Num (-6#1) * Var 22 / (Site 0 * Site 0 * Site 0 * Site 0) + Num (2#1) / (Site 0 * Site 0 * Site 0);
    Num (-6#1) * Var 22 / (Site 0 * Site 0 * Site 0 * Site 0);
    Num (-6#1) * Var 22 / (Site 0 * Site 0 * Site 0 * Site 0);
    Num (-6#1) * Var 22 / (Site 0 * Site 0 * Site 0 * Site 0);
    Num (-6#1) * Var 22 / (Site 0 * Site 0 * Site 0 * Site 0)];
    [Num (-6#1) * Var 22 / (Site 0 * Site 0 * Site 0 * Site 0) + Num (2#1) / (Site 0 * Site 0 * Site 0);
    Num (-6#1) * Var 22 / (Site 0 * Site 0 * Site 0 * Site 0) + Num (2#1) / (Site 0 * Site 0 * Site 0);
    Num (-6#1) * Var 22 / (Site 0 * Site 0 * Site 0 * Site 0) + Num (2#1) / (Site 0 * Site 0 * Site 0) + Num (2#1) / (Site 0 * Site 0 * Site 0);
    Num (-6#1) * Var 22 / (Site 0 * Site 0 * Site 0 * Site 0) + Num (2#1) / (Site 0 * Site 0 * Site 0);
    Num (-6#1) * Var 22 / (Site 0 * Site 0 * Site 0 * Site 0) + Num (2#1) / (Site 0 * Site 0 * Site 0);
    Num (-6#1) * Var 22 / (Site 0 * Site 0 * Site 0 * Site 0) + Num (2#1) / (Site 0 * Site 0 * Site 0);
    Num (-6#1) * Var 22 / (Site 0 * Site 0 * Site 0 * Site 0) + Num (2#1) / (Site 0 * Site 0 * Site 0)];
    [Num (-6#1) * Var 22 / (Site 0 * Site 0 * Site 0 * Site 0);
    Num (-6#1) * Var 22 / (Site 0 * Site 0 * Site 0 * Site 0);
    Num (-6#1) * Var 22 / (Site 0 * Site 0 * Site 0 * Site 0) + Num (2#1) / (Site 0 * Site 0 * Site 0);
    Num (-6#1) * Var 22 / (Site 0 * Site 0 * Site 0 * Site 0);
    Num (-6#1) * Var 22 / (Site 0 * Site 0 * Site 0 * Site 0);
    Num (-6#1) * Var 22 / (Site 0 * Site 0 * Site 0 * Site 0);
    Num (-6#1) * Var 22 / (Site 0 * Site 0 * Site 0 * Site 0)];
    [Num (-6#1) * Var 22 / (Site 0 * Site 0 * Site 0 * Site 0);
    Num (-6#1) * Var 22 / (Site 0 * Site 0 * Site 0 * Site 0);
    Num (-6#1) * Var 22 / (Site 0 * Site 0 * Site 0 * Site 0) + Num (2#1) / (Site 0 * Site 0 * Site 0);
    Num (-6#1) * Var 22 / (Site 0 * Site 0 * Site 0 * Site 0);
    Num (-6#1) * Var 22 / (Site 0 * Site 0 * Site 0 * Site 0);
    Num (-6#1) * Var 22 / (Site 0 * Site 0 * Site 0 * Site 0);
    Num (-6#1) * Var 22 / (Site 0 * Site 0 * Site 0 * Site 0)];
    [Num (-6#1) * Var 22 / (Site 0 * Site 0 * Site 0 * Site 0);
    Num (-6#1) * Var 22 / (Site 0 * Site 0 * Site 0 * Site 0);
    Num (-6#1) * Var 22 / (Site 0 * Site 0 * Site 0 * Site 0) + Num (2#1) / (Site 0 * Site 0 * Site 0);
    Num (-6#1) * Var 22 / (Site 0 * Site 0 * Site 0 * Site 0);
    Num (-6#1) * Var 22 / (Site 0 * Site 0 * Site 0 * Site 0);
    Num (-6#1) * Var 22 / (Site 0 * Site 0 * Site 0 * Site 0);
    Num (-6#1) * Var 22 / (Site 0 * Site 0 * Site 0 * Site 0)];
    [Num (-6#1) * Var 22 / (Site 0 * Site 0 * Site 0 * Site 0);
    Num (-6#1) * Var 22 / (Site 0 * Site 0 * Site 0 * Site 0);
    Num (-6#1) * Var 22 / (Site 0 * Site 0 * Site 0 * Site 0) + Num (2#1) / (Site 0 * Site 0 * Site 0);
    Num (-6#1) * Var 22 / (Site 0 * Site 0 * Site 0 * Site 0);
    Num (-6#1) * Var 22 / (Site 0 * Site 0 * Site 0 * Site 0);
    Num (-6#1) * Var 22 / (Site 0 * Site 0 * Site 0 * Site 0);
    Num (-6#1) * Var 22 / (Site 0 * Site 0 * Site 0 * Site 0)]];
    [[Num (-6#1) * Var 22 / (Site 0 * Site 0 * Site 0 * Site 0);
    Num (-6#1) * Var 22 / (Site 0 * Site 0 * Site 0 * Site 0);
    Num (-6#1) * Var 22 / (Site 0 * Site 0 * Site 0 * Site 0) + Num (2#1) / (Site 0 * Site 0 * Site 0);
    Num (-6#1) * Var 22 / (Site 0 * Site 0 * Site 0 * Site 0);
    Num (-6#1) * Var 22 / (Site 0 * Site 0 * Site 0 * Site 0);
    Num (-6#1) * Var 22 / (Site 0 * Site 0 * Site 0 * Site 0);
    Num (-6#1) * Var 22 / (Site 0 * Site 0 * Site 0 * Site 0)];
    [Num (-6#1) * Var 22 / (Site 0 * Site 0 * Site 0 * Site 0);
    Num (-6#1) * Var 22 / (Site 0 * Site 0 * Site 0 * Site 0);
    Num (-6#1) * Var 22 / (Site 0 * Site 0 * Site 0 * Site 0) + Num (2#1) / (Site 0 * Site 0 * Site 0);
    Num (-6#1) * Var 22 / (Site 0 * Site 0 * Site 0 * Site 0);
    Num (-6#1) * Var 22 / (Site 0 * Site 0 * Site 0 * Site 0);
    Num (-6#1) * Var 22 / (Site 0 * Site 0 * Site 0 * Site 0);
    Num (-6#1) * Var 22 / (Site 0 * Site 0 * Site 0 * Site 0)];
    [Num (-6#1) * Var 22 / (Site 0 * Site 0 * Site 0 * Site 0) + Num (2#1) / (Site 0 * Site 0 * Site 0);
    Num (-6#1) * Var 22 / (Site 0 * Site 0 * Site 0 * Site 0) + Num (2#1) / (Site 0 * Site 0 * Site 0);
    Num (-6#1) * Var 22 / (Site 0 * Site 0 * Site 0 * Site 0) + Num (2#1) / (Site 0 * Site 0 * Site 0) + Num (2#1) / (Site 0 * Site 0 * Site 0);
    Num (-6#1) * Var 22 / (Site 0 * Site 0 * Site 0 * Site 0) + Num (2#1) / (Site 0 * Site 0 * Site 0);
    Num (-6#1) * Var 22 / (Site 0 * Site 0 * Site 0 * Site 0) + Num (2#1) / (Site 0 * Site 0 * Site 0);
    Num (-6#1) * Var 22 / (Site 0 * Site 0 * Site 0 * Site 0) + Num (2#1) / (Site 0 * Site 0 * Site 0);
    Num (-6#1) * Var 22 / (Site 0 * Site 0 * Site 0 * Site 0) + Num (2#1) / (Site 0 * Site 0 * Site 0)];
    [Num (-6#1) * Var 22 / (Site 0 * Site 0 * Site 0 * Site 0);
    Num (-6#1) * Var 22 / (Site 0 * Site 0 * Site 0 * Site 0);
    Num (-6#1) * Var 22 / (Site 0 * Site 0 * Site 0 * Site 0) + Num (2#1) / (Site 0 * Site 0 * Site 0);
    Num (-6#1) * Var 22 / (Site 0 * Site 0 * Site 0 * Site 0);
    Num (-6#1) * Var 22 / (Site 0 * Site 0 * Site 0 * Site 0);
    Num (-6#1) * Var 22 / (Site 0 * Site 0 * Site 0 * Site 0);
    Num (-6#1) * Var 22 / (Site 0 * Site 0 * Site 0 * Site 0)];
    [Num (-6#1) * Var 22 / (Site 0 * Site 0 * Site 0 * Site 0);
    Num (-6#1) * Var 22 / (Site 0 * Site 0 * Site 0 * Site 0);
    Num (-6#1) * Var 22 / (Site 0 * Site 0 * Site 0 * Site 0) + Num (2#1) / (Site 0 * Site 0 * Site 0);
    Num (-6#1) * Var 22 / (Site 0 * Site 0 * Site 0 * Site 0);
    Num (-6#1) * Var 22 / (Site 0 * Site 0 * Site 0 * Site 0);
    Num (-6#1) * Var 22 / (Site 0 * Site 0 * Site 0 * Site 0);
    Num (-6#1) * Var 22 / (Site 0 * Site 0 * Site 0 * Site 0)];
    [Num (-6#1) * Var 22 / (Site 0 * Site 0 * Site 0 * Site 0);
    Num (-6#1) * Var 22 / (Site 0 * Site 0 * Site 0 * Site 0);
    Num (-6#1) * Var 22 / (Site 0 * Site 0 * Site 0 * Site 0) + Num (2#1) / (Site 0 * Site 0 * Site 0);
    Num (-6#1) * Var 22 / (Site 0 * Site 0 * Site 0 * Site 0);
    Num (-6#1) * Var 22 / (Site 0 * Site 0 * Site 0 * Site 0);
    Num (-6#1) * Var 22 / (Site 0 * Site 0 * Site 0 * Site 0);
    Num (-6#1) * Var 22 / (Site 0 * Site 0 * Site 0 * Site 0)];
    [Num (-6#1) * Var 22 / (Site 0 * Site 0 * Site 0 * Site 0);
    Num (-6#1) * Var 22 / (Site 0 * Site 0 * Site 0 * Site 0);
    Num (-6#1) * Var 22 / (Site 0 * Site 0 * Site 0 * Site 0) + Num (2#1) / (Site 0 * Site 0 * Site 0);
    Num (-6#1) * Var 22 / (Site 0 * Site 0 * Site 0 * Site 0);
    Num (-6#1) * Var 22 / (Site 0 * Site 0 * Site 0 * Site 0);
    Num (-6#1) * Var 22 / (Site 0 * Site 0 * Site 0 * Site 0);
    Num (-6#1) * Var 22 / (Site 0 * Site 0 * Site 0 * Site 0)]];
    [[Num (-6#1) * Var 22 / (Site 0 * Site 0 * Site 0 * Site 0);
    Num (-6#1) * Var 22 / (Site 0 * Site 0 * Site 0 * Site 0);
    Num (-6#1) * Var 22 / (Site 0 * Site 0 * Site 0 * Site 0) + Num (2#1) / (Site 0 * Site 0 * Site 0);
    Num (-6#1) * Var 22 / (Site 0 * Site 0 * Site 0 * Site 0);
    Num (-6#1) * Var 22 / (Site 0 * Site 0 * Site 0 * Site 0);
    Num (-6#1) * Var 22 / (Site 0 * Site 0 * Site 0 * Site 0);
    Num (-6#1) * Var 22 / (Site 0 * Site 0 * Site 0 * Site 0)];
    [Num (-6#1) * Var 22 / (Site 0 * Site 0 * Site 0 * Site 0);
    Num (-6#1) * Var 22 / (Site 0 * Site 0 * Site 0 * Site 0);
    Num (-6#1) * Var 22 / (Site 0 * Site 0 * Site 0 * Site 0) + Num (2#1) / (Site 0 * Site 0 * Site 0);
    Num (-6#1) * Var 22 / (Site 0 * Site 0 * Site 0 * Site 0);
    Num (-6#1) * Var 22 / (Site 0 * Site 0 * Site 0 * Site 0);
    Num (-6#1) * Var 22 / (Site 0 * Site 0 * Site 0 * Site 0);
    Num (-6#1) * Var 22 / (Site 0 * Site 0 * Site 0 * Site 0)];
    [Num (-6#1) * Var 22 / (Site 0 * Site 0 * Site 0 * Site 0) + Num (2#1) / (Site 0 * Site 0 * Site 0);
    Num (-6#1) * Var 22 / (Site 0 * Site 0 * Site 0 * Site 0) + Num (2#1) / (Site 0 * Site 0 * Site 0);
    Num (-6#1) * Var 22 / (Site 0 * Site 0 * Site 0 * Site 0) + Num (2#1) / (Site 0 * Site 0 * Site 0) + Num (2#1) / (Site 0 * Site 0 * Site 0);
    Num (-6#1) * Var 22 / (Site 0 * Site 0 * Site 0 * Site 0) + Num (2#1) / (Site 0 * Site 0 * Site 0);
    Num (-6#1) * Var 22 / (Site 0 * Site 0 * Site 0 * Site 0) + Num (2#1) / (Site 0 * Site 0 * Site 0);
    Num (-6#1) * Var 22 / (Site 0 * Site 0 * Site 0 * Site 0) + Num (2#1) / (Site 0 * Site 0 * Site 0);
    Num (-6#1) * Var 22 / (Site 0 * Site 0 * Site 0 * Site 0) + Num (2#1) / (Site 0 * Site 0 * Site 0)];
    [Num (-6#1) * Var 22 / (Site 0 * Site 0 * Site 0 * Site 0);
    Num (-6#1) * Var 22 / (Site 0 * Site 0 * Site 0 * Site 0);
    Num (-6#1) * Var 22 / (Site 0 * Site 0 * Site 0 * Site 0) + Num (2#1) / (Site 0 * Site 0 * Site 0);
    Num (-6#1) * Var 22 / (Site 0 * Site 0 * Site 0 * Site 0);
    Num (-6#1) * Var 22 / (Site 0 * Site 0 * Site 0 * Site 0);
    Num (-6#1) * Var 22 / (Site 0 * Site 0 * Site 0 * Site 0);
    Num (-6#1) * Var 22 / (Site 0 * Site 0 * Site 0 * Site 0)];
    [Num (-6#1) * Var 22 / (Site 0 * Site 0 * Site 0 * Site 0);
    Num (-6#1) * Var 22 / (Site 0 * Site 0 * Site 0 * Site 0);
    Num (-6#1) * Var 22 / (Site 0 * Site 0 * Site 0 * Site 0) + Num (2#1) / (Site 0 * Site 0 * Site 0);
    Num (-6#1) * Var 22 / (Site 0 * Site 0 * Site 0 * Site 0);
    Num (-6#1) * Var 22 / (Site 0 * Site 0 * Site 0 * Site 0);
    Num (-6#1) * Var 22 / (Site 0 * Site 0 * Site 0 * Site 0);
    Num (-6#1) * Var 22 / (Site 0 * Site 0 * Site 0 * Site 0)];
    [Num (-6#1) * Var 22 / (Site 0 * Site 0 * Site 0 * Site 0);
    Num (-6#1) * Var 22 / (Site 0 * Site 0 * Site 0 * Site 0);
    Num (-6#1) * Var 22 / (Site 0 * Site 0 * Site 0 * Site 0) + Num (2#1) / (Site 0 * Site 0 * Site 0);
    Num (-6#1) * Var 22 / (Site 0 * Site 0 * Site 0 * Site 0);
    Num (-6#1) * Var 22 / (Site 0 * Site 0 * Site 0 * Site 0);
    Num (-6#1) * Var 22 / (Site 0 * Site 0 * Site 0 * Site 0);
    Num (-6#1) * Var 22 / (Site 0 * Site 0 * Site 0 * Site 0)];
    [Num (-6#1) * Var 22 / (Site 0 * Site 0 * Site 0 * Site 0);
    Num (-6#1) * Var 22 / (Site 0 * Site 0 * Site 0 * Site 0);
    Num (-6#1) * Var 22 / (Site 0 * Site 0 * Site 0 * Site 0) + Num (2#1) / (Site 0 * Site 0 * Site 0);
    Num (-6#1) * Var 22 / (Site 0 * Site 0 * Site 0 * Site 0);
    Num (-6#1) * Var 22 / (Site 0 * Site 0 * Site 0 * Site 0);
    Num (-6#1) * Var 22 / (Site 0 * Site 0 * Site 0 * Site 0);
    Num (-6#1) * Var 22 / (Site 0 * Site 0 * Site 0 * Site 0)]];
    [[Num (-6#1) * Var 22 / (Site 0 * Site 0 * Site 0 * Site 0);
    Num (-6#1) * Var 22 / (Site 0 * Site 0 * Site 0 * Site 0);
    Num (-6#1) * Var 22 / (Site 0 * Site 0 * Site 0 * Site 0) + Num (2#1) / (Site 0 * Site 0 * Site 0);
    Num (-6#1) * Var 22 / (Site 0 * Site 0 * Site 0 * Site 0);
    Num (-6#1) * Var 22 / (Site 0 * Site 0 * Site 0 * Site 0);
    Num (-6#1) * Var 22 / (Site 0 * Site 0 * Site 0 * Site 0);
    Num (-6#1) * Var 22 / (Site 0 * Site 0 * Site 0 * Site 0)];
    [Num (-6#1) * Var 22 / (Site 0 * Site 0 * Site 0 * Site 0);
    Num (-6#1) * Var 22 / (Site 0 * Site 0 * Site 0 * Site 0);
    Num (-6#1) * Var 22 / (Site 0 * Site 0 * Site 0 * Site 0) + Num (2#1) / (Site 0 * Site 0 * Site 0);
    Num (-6#1) * Var 22 / (Site 0 * Site 0 * Site 0 * Site 0);
    Num (-6#1) * Var 22 / (Site 0 * Site 0 * Site 0 * Site 0);
    Num (-6#1) * Var 22 / (Site 0 * Site 0 * Site 0 * Site 0);
    Num (-6#1) * Var 22 / (Site 0 * Site 0 * Site 0 * Site 0)];
    [Num (-6#1) * Var 22 / (Site 0 * Site 0 * Site 0 * Site 0) + Num (2#1) / (Site 0 * Site 0 * Site 0);
    Num (-6#1) * Var 22 / (Site 0 * Site 0 * Site 0 * Site 0) + Num (2#1) / (Site 0 * Site 0 * Site 0);
    Num (-6#1) * Var 22 / (Site 0 * Site 0 * Site 0 * Site 0) + Num (2#1) / (Site 0 * Site 0 * Site 0) + Num (2#1) / (Site 0 * Site 0 * Site 0);
    Num (-6#1) * Var 22 / (Site 0 * Site 0 * Site 0 * Site 0) + Num (2#1) / (Site 0 * Site 0 * Site 0);
    Num (-6#1) * Var 22 / (Site 0 * Site 0 * Site 0 * Site 0) + Num (2#1) / (Site 0 * Site 0 * Site 0);
    Num (-6#1) * Var 22 / (Site 0 * Site 0 * Site 0 * Site 0) + Num (2#1) / (Site 0 * Site 0 * Site 0);
    Num (-6#1) * Var 22 / (Site 0 * Site 0 * Site 0 * Site 0) + Num (2#1) / (Site 0 * Site 0 * Site 0)];
    [Num (-6#1) * Var 22 / (Site 0 * Site 0 * Site 0 * Site 0);
    Num (-6#1) * Var 22 / (Site 0 * Site 0 * Site 0 * Site 0);
    Num (-6#1) * Var 22 / (Site 0 * Site 0 * Site 0 * Site 0) + Num (2#1) / (Site 0 * Site 0 * Site 0);
    Num (-6#1) * Var 22 / (Site 0 * Site 0 * Site 0 * Site 0);
    Num (-6#1) * Var 22 / (Site 0 * Site 0 * Site 0 * Site 0);
    Num (-6#1) * Var 22 / (Site 0 * Site 0 * Site 0 * Site 0);
    Num (-6#1) * Var 22 / (Site 0 * Site 0 * Site 0 * Site 0)];
    [Num (-6#1) * Var 22 / (Site 0 * Site 0 * Site 0 * Site 0);
    Num (-6#1) * Var 22 / (Site 0 * Site 0 * Site 0 * Site 0);
    Num (-6#1) * Var 22 / (Site 0 * Site 0 * Site 0 * Site 0) + Num (2#1) / (Site 0 * Site 0 * Site 0);
    Num (-6#1) * Var 22 / (Site 0 * Site 0 * Site 0 * Site 0);
    Num (-6#1) * Var 22 / (Site 0 * Site 0 * Site 0 * Site 0);
    Num (-6#1) * Var 22 / (Site 0 * Site 0 * Site 0 * Site 0);
    Num (-6#1) * Var 22 / (Site 0 * Site 0 * Site 0 * Site 0)];
    [Num (-6#1) * Var 22 / (Site 0 * Site 0 * Site 0 * Site 0);
    Num (-6#1) * Var 22 / (Site 0 * Site 0 * Site 0 * Site 0);
    Num (-6#1) * Var 22 / (Site 0 * Site 0 * Site 0 * Site 0) + Num (2#1) / (Site 0 * Site 0 * Site 0);
    Num (-6#1) * Var 22 / (Site 0 * Site 0 * Site 0 * Site 0);
    Num (-6#1) * Var 22 / (Site 0 * Site 0 * Site 0 * Site 0);
    Num (-6#1) * Var 22 / (Site 0 * Site 0 * Site 0 * Site 0);
    Num (-6#1) * Var 22 / (Site 0 * Site 0 * Site 0 * Site 0)];
    [Num (-6#1) * Var 22 / (Site 0 * Site 0 * Site 0 * Site 0);
    Num (-6#1) * Var 22 / (Site 0 * Site 0 * Site 0 * Site 0);
    Num (-6#1) * Var 22 / (Site 0 * Site 0 * Site 0 * Site 0) + Num (2#1) / (Site 0 * Site 0 * Site 0);
    Num (-6#1) * Var 22 / (Site 0 * Site 0 * Site 0 * Site 0);
    Num (-6#1) * Var 22 / (Site 0 * Site 0 * Site 0 * Site 0);
    Num (-6#1) * Var 22 / (Site 0 * Site 0 * Site 0 * Site 0);
    Num (-6#1) * Var 22 / (Site 0 * Site 0 * Site 0 * Site 0)]]];
    [[[Num (-6#1) * (Var 23 + Var 26 / Num (2#1)) / (Site 0 * Site 0 * Site 0 * Site 0);
    Num (-6#1) * (Var 23 + Var 26 / Num (2#1)) / (Site 0 * Site 0 * Site 0 * Site 0);
    Num (-6#1) * (Var 23 + Var 26 / Num (2#1)) / (Site 0 * Site 0 * Site 0 * Site 0);
    Num (-6#1) * (Var 23 + Var 26 / Num (2#1)) / (Site 0 * Site 0 * Site 0 * Site 0) + Num (2#1) / (Site 0 * Site 0 * Site 0);
    Num (-6#1) * (Var 23 + Var 26 / Num (2#1)) / (Site 0 * Site 0 * Site 0 * Site 0);
    Num (-6#1) * (Var 23 + Var 26 / Num (2#1)) / (Site 0 * Site 0 * Site 0 * Site 0);
    Num (-6#1) * (Var 23 + Var 26 / Num (2#1)) / (Site 0 * Site 0 * Site 0 * Site 0) + Num (1#1) / (Site 0 * Site 0 * Site 0)];
    [Num (-6#1) * (Var 23 + Var 26 / Num (2#1)) / (Site 0 * Site 0 * Site 0 * Site 0);
    Num (-6#1) * (Var 23 + Var 26 / Num (2#1)) / (Site 0 * Site 0 * Site 0 * Site 0);
    Num (-6#1) * (Var 23 + Var 26 / Num (2#1)) / (Site 0 * Site 0 * Site 0 * Site 0);
    Num (-6#1) * (Var 23 + Var 26 / Num (2#1)) / (Site 0 * Site 0 * Site 0 * Site 0) + Num (2#1) / (Site 0 * Site 0 * Site 0);
    Num (-6#1) * (Var 23 + Var 26 / Num (2#1)) / (Site 0 * Site 0 * Site 0 * Site 0);
    Num (-6#1) * (Var 23 + Var 26 / Num (2#1)) / (Site 0 * Site 0 * Site 0 * Site 0);
    Num (-6#1) * (Var 23 + Var 26 / Num (2#1)) / (Site 0 * Site 0 * Site 0 * Site 0) + Num (1#1) / (Site 0 * Site 0 * Site 0)];
    [Num (-6#1) * (Var 23 + Var 26 / Num (2#1)) / (Site 0 * Site 0 * Site 0 * Site 0);
    Num (-6#1) * (Var 23 + Var 26 / Num (2#1)) / (Site 0 * Site 0 * Site 0 * Site 0);
    Num (-6#1) * (Var 23 + Var 26 / Num (2#1)) / (Site 0 * Site 0 * Site 0 * Site 0);
    Num (-6#1) * (Var 23 + Var 26 / Num (2#1)) / (Site 0 * Site 0 * Site 0 * Site 0) + Num (2#1) / (Site 0 * Site 0 * Site 0);
    Num (-6#1) * (Var 23 + Var 26 / Num (2#1)) / (Site 0 * Site 0 * Site 0 * Site 0);
    Num (-6#1) * (Var 23 + Var 26 / Num (2#1)) / (Site 0 * Site 0 * Site 0 * Site 0);
    Num (-6#1) * (Var 23 + Var 26 / Num (2#1)) / (Site 0 * Site 0 * Site 0 * Site 0) + Num (1#1) / (Site 0 * Site 0 * Site 0)];
    [Num (-6#1) * (Var 23 + Var 26 / Num (2#1)) / (Site 0 * Site 0 * Site 0 * Site 0) + Num (2#1) / (Site 0 * Site 0 * Site 0);
    Num (-6#1) * (Var 23 + Var 26 / Num (2#1)) / (Site 0 * Site 0 * Site 0 * Site 0) + Num (2#1) / (Site 0 * Site 0 * Site 0);
    Num (-6#1) * (Var 23 + Var 26 / Num (2#1)) / (Site 0 * Site 0 * Site 0 * Site 0) + Num (2#1) / (Site 0 * Site 0 * Site 0);
    Num (-6#1) * (Var 23 + Var 26 / Num (2#1)) / (Site 0 * Site 0 * Site 0 * Site 0) + Num (2#1) / (Site 0 * Site 0 * Site 0) + Num (2#1) / (Site 0 * Site 0 * Site 0);
    Num (-6#1) * (Var 23 + Var 26 / Num (2#1)) / (Site 0 * Site 0 * Site 0 * Site 0) + Num (2#1) / (Site 0 * Site 0 * Site 0);
    Num (-6#1) * (Var 23 + Var 26 / Num (2#1)) / (Site 0 * Site 0 * Site 0 * Site 0) + Num (2#1) / (Site 0 * Site 0 * Site 0);
    Num (-6#1) * (Var 23 + Var 26 / Num (2#1)) / (Site 0 * Site 0 * Site 0 * Site 0) + Num (2#1) / (Site 0 * Site 0 * Site 0) + Num (1#1) / (Site 0 * Site 0 * Site 0)];
    [Num (-6#1) * (Var 23 + Var 26 / Num (2#1)) / (Site 0 * Site 0 * Site 0 * Site 0);
    Num (-6#1) * (Var 23 + Var 26 / Num (2#1)) / (Site 0 * Site 0 * Site 0 * Site 0);
    Num (-6#1) * (Var 23 + Var 26 / Num (2#1)) / (Site 0 * Site 0 * Site 0 * Site 0);
    Num (-6#1) * (Var 23 + Var 26 / Num (2#1)) / (Site 0 * Site 0 * Site 0 * Site 0) + Num (2#1) / (Site 0 * Site 0 * Site 0);
    Num (-6#1) * (Var 23 + Var 26 / Num (2#1)) / (Site 0 * Site 0 * Site 0 * Site 0);
    Num (-6#1) * (Var 23 + Var 26 / Num (2#1)) / (Site 0 * Site 0 * Site 0 * Site 0);
    Num (-6#1) * (Var 23 + Var 26 / Num (2#1)) / (Site 0 * Site 0 * Site 0 * Site 0) + Num (1#1) / (Site 0 * Site 0 * Site 0)];
    [Num (-6#1) * (Var 23 + Var 26 / Num (2#1)) / (Site 0 * Site 0 * Site 0 * Site 0);
    Num (-6#1) * (Var 23 + Var 26 / Num (2#1)) / (Site 0 * Site 0 * Site 0 * Site 0);
    Num (-6#1) * (Var 23 + Var 26 / Num (2#1)) / (Site 0 * Site 0 * Site 0 * Site 0);
    Num (-6#1) * (Var 23 + Var 26 / Num (2#1)) / (Site 0 * Site 0 * Site 0 * Site 0) + Num (2#1) / (Site 0 * Site 0 * Site 0);
    Num (-6#1) * (Var 23 + Var 26 / Num (2#1)) / (Site 0 * Site 0 * Site 0 * Site 0);
    Num (-6#1) * (Var 23 + Var 26 / Num (2#1)) / (Site 0 * Site 0 * Site 0 * Site 0);
    Num (-6#1) * (Var 23 + Var 26 / Num (2#1)) / (Site 0 * Site 0 * Site 0 * Site 0) + Num (1#1) / (Site 0 * Site 0 * Site 0)];
    [Num (-6#1) * (Var 23 + Var 26 / Num (2#1)) / (Site 0 * Site 0 * Site 0 * Site 0) + Num (1#1) / (Site 0 * Site 0 * Site 0);
    Num (-6#1) * (Var 23 + Var 26 / Num (2#1)) / (Site 0 * Site 0 * Site 0 * Site 0) + Num (1#1) / (Site 0 * Site 0 * Site 0);
    Num (-6#1) * (Var 23 + Var 26 / Num (2#1)) / (Site 0 * Site 0 * Site 0 * Site 0) + Num (1#1) / (Site 0 * Site 0 * Site 0);
    Num (-6#1) * (Var 23 + Var 26 / Num (2#1)) / (Site 0 * Site 0 * Site 0 * Site 0) + Num (2#1) / (Site 0 * Site 0 * Site 0) + Num (1#1) / (Site 0 * Site 0 * Site 0);
    Num (-6#1) * (Var 23 + Var 26 / Num (2#1)) / (Site 0 * Site 0 * Site 0 * Site 0) + Num (1#1) / (Site 0 * Site 0 * Site 0);
    Num (-6#1) * (Var 23 + Var 26 / Num (2#1)) / (Site 0 * Site 0 * Site 0 * Site 0) + Num (1#1) / (Site 0 * Site 0 * Site 0);
    Num (-6#1) * (Var 23 + Var 26 / Num (2#1)) / (Site 0 * Site 0 * Site 0 * Site 0) + Num (1#1) / (Site 0 * Site 0 * Site 0) + Num (1#1) / (Site 0 * Site 0 * Site 0)]];
    [[Num (-6#1) * (Var 23 + Var 26 / Num (2#1)) / (Site 0 * Site 0 * Site 0 * Site 0);
    Num (-6#1) * (Var 23 + Var 26 / Num (2#1)) / (Site 0 * Site 0 * Site 0 * Site 0);
    Num (-6#1) * (Var 23 + Var 26 / Num (2#1)) / (Site 0 * Site 0 * Site 0 * Site 0);
    Num (-6#1) * (Var 23 + Var 26 / Num (2#1)) / (Site 0 * Site 0 * Site 0 * Site 0) + Num (2#1) / (Site 0 * Site 0 * Site 0);
    Num (-6#1) * (Var 23 + Var 26 / Num (2#1)) / (Site 0 * Site 0 * Site 0 * Site 0);
    Num (-6#1) * (Var 23 + Var 26 / Num (2#1)) / (Site 0 * Site 0 * Site 0 * Site 0);
    Num (-6#1) * (Var 23 + Var 26 / Num (2#1)) / (Site 0 * Site 0 * Site 0 * Site 0) + Num (1#1) / (Site 0 * Site 0 * Site 0)];
    [Num (-6#1) * (Var 23 + Var 26 / Num (2#1)) / (Site 0 * Site 0 * Site 0 * Site 0);
    Num (-6#1) * (Var 23 + Var 26 / Num (2#1)) / (Site 0 * Site 0 * Site 0 * Site 0);
    Num (-6#1) * (Var 23 + Var 26 / Num (2#1)) / (Site 0 * Site 0 * Site 0 * Site 0);
    Num (-6#1) * (Var 23 + Var 26 / Num (2#1)) / (Site 0 * Site 0 * Site 0 * Site 0) + Num (2#1) / (Site 0 * Site 0 * Site 0);
    Num (-6#1) * (Var 23 + Var 26 / Num (2#1)) / (Site 0 * Site 0 * Site 0 * Site 0);
    Num (-6#1) * (Var 23 + Var 26 / Num (2#1)) / (Site 0 * Site 0 * Site 0 * Site 0);
    Num (-6#1) * (Var 23 + Var 26 / Num (2#1)) / (Site 0 * Site 0 * Site 0 * Site 0) + Num (1#1) / (Site 0 * Site 0 * Site 0)];
    [Num (-6#1) * (Var 23 + Var 26 / Num (2#1)) / (Site 0 * Site 0 * Site 0 * Site 0);
    Num (-6#1) * (Var 23 + Var 26 / Num (2#1)) / (Site 0 * Site 0 * Site 0 * Site 0);
    Num (-6#1) * (Var 23 + Var 26 / Num (2#1)) / (Site 0 * Site 0 * Site 0 * Site 0);
    Num (-6#1) * (Var 23 + Var 26 / Num (2#1)) / (Site 0 * Site 0 * Site 0 * Site 0) + Num (2#1) / (Site 0 * Site 0 * Site 0);
    Num (-6#1) * (Var 23 + Var 26 / Num (2#1)) / (Site 0 * Site 0 * Site 0 * Site 0);
    Num (-6#1) * (Var 23 + Var 26 / Num (2#1)) / (Site 0 * Site 0 * Site 0 * Site 0);
    Num (-6#1) * (Var 23 + Var 26 / Num (2#1)) / (Site 0 * Site 0 * Site 0 * Site 0) + Num (1#1) / (Site 0 * Site 0 * Site 0)];
    [Num (-6#1) * (Var 23 + Var 26 / Num (2#1)) / (Site 0 * Site 0 * Site 0 * Site 0) + Num (2#1) / (Site 0 * Site 0 * Site 0);
    Num (-6#1) * (Var 23 + Var 26 / Num (2#1)) / (Site 0 * Site 0 * Site 0 * Site 0) + Num (2#1) / (Site 0 * Site 0 * Site 0);
    Num (-6#1) * (Var 23 + Var 26 / Num (2#1)) / (Site 0 * Site 0 * Site 0 * Site 0) + Num (2#1) / (Site 0 * Site 0 * Site 0);
    Num (-6#1) * (Var 23 + Var 26 / Num (2#1)) / (Site 0 * Site 0 * Site 0 * Site 0) + Num (2#1) / (Site 0 * Site 0 * Site 0) + Num (2#1) / (Site 0 * Site 0 * Site 0);
    Num (-6#1) * (Var 23 + Var 26 / Num (2#1)) / (Site 0 * Site 0 * Site 0 * Site 0) + Num (2#1) / (Site 0 * Site 0 * Site 0);
    Num (-6#1) * (Var 23 + Var 26 / Num (2#1)) / (Site 0 * Site 0 * Site 0 * Site 0) + Num (2#1) / (Site 0 * Site 0 * Site 0);
    Num (-6#1) * (Var 23 + Var 26 / Num (2#1)) / (Site 0 * Site 0 * Site 0 * Site 0) + Num (2#1) / (Site 0 * Site 0 * Site 0) + Num (1#1) / (Site 0 * Site 0 * Site 0)];
    [Num (-6#1) * (Var 23 + Var 26 / Num (2#1)) / (Site 0 * Site 0 * Site 0 * Site 0);
    Num (-6#1) * (Var 23 + Var 26 / Num (2#1)) / (Site 0 * Site 0 * Site 0 * Site 0);
    Num (-6#1) * (Var 23 + Var 26 / Num (2#1)) / (Site 0 * Site 0 * Site 0 * Site 0);
    Num (-6#1) * (Var 23 + Var 26 / Num (2#1)) / (Site 0 * Site 0 * Site 0 * Site 0) + Num (2#1) / (Site 0 * Site 0 * Site 0);
    Num (-6#1) * (Var 23 + Var 26 / Num (2#1)) / (Site 0 * Site 0 * Site 0 * Site 0);
    Num (-6#1) * (Var 23 + Var 26 / Num (2#1)) / (Site 0 * Site 0 * Site 0 * Site 0);
    Num (-6#1) * (Var 23 + Var 26 / Num (2#1)) / (Site 0 * Site 0 * Site 0 * Site 0) + Num (1#1) / (Site 0 * Site 0 * Site 0)];
    [Num (-6#1) * (Var 23 + Var 26 / Num (2#1)) / (Site 0 * Site 0 * Site 0 * Site 0);
    Num (-6#1) * (Var 23 + Var 26 / Num (2#1)) / (Site 0 * Site 0 * Site 0 * Site 0);
    Num (-6#1) * (Var 23 + Var 26 / Num (2#1)) / (Site 0 * Site 0 * Site 0 * Site 0);
    Num (-6#1) * (Var 23 + Var 26 / Num (2#1)) / (Site 0 * Site 0 * Site 0 * Site 0) + Num (2#1) / (Site 0 * Site 0 * Site 0);
    Num (-6#1) * (Var 23 + Var 26 / Num (2#1)) / (Site 0 * Site 0 * Site 0 * Site 0);
    Num (-6#1) * (Var 23 + Var 26 / Num (2#1)) / (Site 0 * Site 0 * Site 0 * Site 0);
    Num (-6#1) * (Var 23 + Var 26 / Num (2#1)) / (Site 0 * Site 0 * Site 0 * Site 0) + Num (1#1) / (Site 0 * Site 0 * Site 0)];
    [Num (-6#1) * (Var 23 + Var 26 / Num (2#1)) / (Site 0 * Site 0 * Site 0 * Site 0) + Num (1#1) / (Site 0 * Site 0 * Site 0);
    Num (-6#1) * (Var 23 + Var 26 / Num (2#1)) / (Site 0 * Site 0 * Site 0 * Site 0) + Num (1#1) / (Site 0 * Site 0 * Site 0);
    Num (-6#1) * (Var 23 + Var 26 / Num (2#1)) / (Site 0 * Site 0 * Site 0 * Site 0) + Num (1#1) / (Site 0 * Site 0 * Site 0);
    Num (-6#1) * (Var 23 + Var 26 / Num (2#1)) / (Site 0 * Site 0 * Site 0 * Site 0) + Num (2#1) / (Site 0 * Site 0 * Site 0) + Num (1#1) / (Site 0 * Site 0 * Site 0);
    Num (-6#1) * (Var 23 + Var 26 / Num (2#1)) / (Site 0 * Site 0 * Site 0 * Site 0) + Num (1#1) / (Site 0 * Site 0 * Site 0);
    Num (-6#1) * (Var 23 + Var 26 / Num (2#1)) / (Site 0 * Site 0 * Site 0 * Site 0) + Num (1#1) / (Site 0 * Site 0 * Site 0);
    Num (-6#1) * (Var 23 + Var 26 / Num (2#1)) / (Site 0 * Site 0 * Site 0 * Site 0) + Num (1#1) / (Site 0 * Site 0 * Site 0) + Num (1#1) / (Site 0 * Site 0 * Site 0)]];
    [[Num (-6#1) * (Var 23 + Var 26 / Num (2#1)) / (Site 0 * Site 0 * Site 0 * Site 0);
    Num (-6#1) * (Var 23 + Var 26 / Num (2#1)) / (Site 0 * Site 0 * Site 0 * Site 0);
    Num (-6#1) * (Var 23 + Var 26 / Num (2#1)) / (Site 0 * Site 0 * Site 0 * Site 0);
    Num (-6#1) * (Var 23 + Var 26 / Num (2#1)) / (Site 0 * Site 0 * Site 0 * Site 0) + Num (2#1) / (Site 0 * Site 0 * Site 0);
    Num (-6#1) * (Var 23 + Var 26 / Num (2#1)) / (Site 0 * Site 0 * Site 0 * Site 0);
    Num (-6#1) * (Var 23 + Var 26 / Num (2#1)) / (Site 0 * Site 0 * Site 0 * Site 0);
    Num (-6#1) * (Var 23 + Var 26 / Num (2#1)) / (Site 0 * Site 0 * Site 0 * Site 0) + Num (1#1) / (Site 0 * Site 0 * Site 0)];
    [Num (-6#1) * (Var 23 + Var 26 / Num (2#1)) / (Site 0 * Site 0 * Site 0 * Site 0);
    Num (-6#1) * (Var 23 + Var 26 / Num (2#1)) / (Site 0 * Site 0 * Site 0 * Site 0);
    Num (-6#1) * (Var 23 + Var 26 / Num (2#1)) / (Site 0 * Site 0 * Site 0 * Site 0);
    Num (-6#1) * (Var 23 + Var 26 / Num (2#1)) / (Site 0 * Site 0 * Site 0 * Site 0) + Num (2#1) / (Site 0 * Site 0 * Site 0);
    Num (-6#1) * (Var 23 + Var 26 / Num (2#1)) / (Site 0 * Site 0 * Site 0 * Site 0);
    Num (-6#1) * (Var 23 + Var 26 / Num (2#1)) / (Site 0 * Site 0 * Site 0 * Site 0);
    Num (-6#1) * (Var 23 + Var 26 / Num (2#1)) / (Site 0 * Site 0 * Site 0 * Site 0) + Num (1#1) / (Site 0 * Site 0 * Site 0)];
    [Num (-6#1) * (Var 23 + Var 26 / Num (2#1)) / (Site 0 * Site 0 * Site 0 * Site 0);
    Num (-6#1) * (Var 23 + Var 26 / Num (2#1)) / (Site 0 * Site 0 * Site 0 * Site 0);
    Num (-6#1) * (Var 23 + Var 26 / Num (2#1)) / (Site 0 * Site 0 * Site 0 * Site 0);
    Num (-6#1) * (Var 23 + Var 26 / Num (2#1)) / (Site 0 * Site 0 * Site 0 * Site 0) + Num (2#1) / (Site 0 * Site 0 * Site 0);
    Num (-6#1) * (Var 23 + Var 26 / Num (2#1)) / (Site 0 * Site 0 * Site 0 * Site 0);
    Num (-6#1) * (Var 23 + Var 26 / Num (2#1)) / (Site 0 * Site 0 * Site 0 * Site 0);
    Num (-6#1) * (Var 23 + Var 26 / Num (2#1)) / (Site 0 * Site 0 * Site 0 * Site 0) + Num (1#1) / (Site 0 * Site 0 * Site 0)];
    [Num (-6#1) * (Var 23 + Var 26 / Num (2#1)) / (Site 0 * Site 0 * Site 0 * Site 0) + Num (2#1) / (Site 0 * Site 0 * Site 0);
    Num (-6#1) * (Var 23 + Var 26 / Num (2#1)) / (Site 0 * Site 0 * Site 0 * Site 0) + Num (2#1) / (Site 0 * Site 0 * Site 0);
    Num (-6#1) * (Var 23 + Var 26 / Num (2#1)) / (Site 0 * Site 0 * Site 0 * Site 0) + Num (2#1) / (Site 0 * Site 0 * Site 0);
    Num (-6#1) * (Var 23 + Var 26 / Num (2#1)) / (Site 0 * Site 0 * Site 0 * Site 0) + Num (2#1) / (Site 0 * Site 0 * Site 0) + Num (2#1) / (Site 0 * Site 0 * Site 0);
    Num (-6#1) * (Var 23 + Var 26 / Num (2#1)) / (Site 0 * Site 0 * Site 0 * Site 0) + Num (2#1) / (Site 0 * Site 0 * Site 0);
    Num (-6#1) * (Var 23 + Var 26 / Num (2#1)) / (Site 0 * Site 0 * Site 0 * Site 0) + Num (2#1) / (Site 0 * Site 0 * Site 0);
    Num (-6#1) * (Var 23 + Var 26 / Num (2#1)) / (Site 0 * Site 0 * Site 0 * Site 0) + Num (2#1) / (Site 0 * Site 0 * Site 0) + Num (1#1) / (Site 0 * Site 0 * Site 0)];
    [Num (-6#1) * (Var 23 + Var 26 / Num (2#1)) / (Site 0 * Site 0 * Site 0 * Site 0);
    Num (-6#1) * (Var 23 + Var 26 / Num (2#1)) / (Site 0 * Site 0 * Site 0 * Site 0);
    Num (-6#1) * (Var 23 + Var 26 / Num (2#1)) / (Site 0 * Site 0 * Site 0 * Site 0);
    Num (-6#1) * (Var 23 + Var 26 / Num (2#1)) / (Site 0 * Site 0 * Site 0 * Site 0) + Num (2#1) / (Site 0 * Site 0 * Site 0);
    Num (-6#1) * (Var 23 + Var 26 / Num (2#1)) / (Site 0 * Site 0 * Site 0 * Site 0);
    Num (-6#1) * (Var 23 + Var 26 / Num (2#1)) / (Site 0 * Site 0 * Site 0 * Site 0);
    Num (-6#1) * (Var 23 + Var 26 / Num (2#1)) / (Site 0 * Site 0 * Site 0 * Site 0) + Num (1#1) / (Site 0 * Site 0 * Site 0)];
    [Num (-6#1) * (Var 23 + Var 26 / Num (2#1)) / (Site 0 * Site 0 * Site 0 * Site 0);
    Num (-6#1) * (Var 23 + Var 26 / Num (2#1)) / (Site 0 * Site 0 * Site 0 * Site 0);
    Num (-6#1) * (Var 23 + Var 26 / Num (2#1)) / (Site 0 * Site 0 * Site 0 * Site 0);
    Num (-6#1) * (Var 23 + Var 26 / Num (2#1)) / (Site 0 * Site 0 * Site 0 * Site 0) + Num (2#1) / (Site 0 * Site 0 * Site 0);
    Num (-6#1) * (Var 23 + Var 26 / Num (2#1)) / (Site 0 * Site 0 * Site 0 * Site 0);
    Num (-6#1) * (Var 23 + Var 26 / Num (2#1)) / (Site 0 * Site 0 * Site 0 * Site 0);
    Num (-6#1) * (Var 23 + Var 26 / Num (2#1)) / (Site 0 * Site 0 * Site 0 * Site 0) + Num (1#1) / (Site 0 * Site 0 * Site 0)];
    [Num (-6#1) * (Var 23 + Var 26 / Num (2#1)) / (Site 0 * Site 0 * Site 0 * Site 0) + Num (1#1) / (Site 0 * Site 0 * Site 0);
    Num (-6#1) * (Var 23 + Var 26 / Num (2#1)) / (Site 0 * Site 0 * Site 0 * Site 0) + Num (1#1) / (Site 0 * Site 0 * Site 0);
    Num (-6#1) * (Var 23 + Var 26 / Num (2#1)) / (Site 0 * Site 0 * Site 0 * Site 0) + Num (1#1) / (Site 0 * Site 0 * Site 0);
    Num (-6#1) * (Var 23 + Var 26 / Num (2#1)) / (Site 0 * Site 0 * Site 0 * Site 0) + Num (2#1) / (Site 0 * Site 0 * Site 0) + Num (1#1) / (Site 0 * Site 0 * Site 0);
    Num (-6#1) * (Var 23 + Var 26 / Num (2#1)) / (Site 0 * Site 0 * Site 0 * Site 0) + Num (1#1) / (Site 0 * Site 0 * Site 0);
    Num (-6#1) * (Var 23 + Var 26 / Num (2#1)) / (Site 0 * Site 0 * Site 0 * Site 0) + Num (1#1) / (Site 0 * Site 0 * Site 0);
    Num (-6#1) * (Var 23 + Var 26 / Num (2#1)) / (Site 0 * Site 0 * Site 0 * Site 0) + Num (1#1) / (Site 0 * Site 0 * Site 0) + Num (1#1) / (Site 0 * Site 0 * Site 0)]];
    [[Num (-6#1) * (Var 23 + Var 26 / Num (2#1)) / (Site 0 * Site 0 * Site 0 * Site 0) + Num (2#1) / (Site 0 * Site 0 * Site 0);
    Num (-6#1) * (Var 23 + Var 26 / Num (2#1)) / (Site 0 * Site 0 * Site 0 * Site 0) + Num (2#1) / (Site 0 * Site 0 * Site 0);
    Num (-6#1) * (Var 23 + Var 26 / Num (2#1)) / (Site 0 * Site 0 * Site 0 * Site 0) + Num (2#1) / (Site 0 * Site 0 * Site 0);
    Num (-6#1) * (Var 23 + Var 26 / Num (2#1)) / (Site 0 * Site 0 * Site 0 * Site 0) + Num (2#1) / (Site 0 * Site 0 * Site 0) + Num (2#1) / (Site 0 * Site 0 * Site 0);
    Num (-6#1) * (Var 23 + Var 26 / Num (2#1)) / (Site 0 * Site 0 * Site 0 * Site 0) + Num (2#1) / (Site 0 * Site 0 * Site 0);
    Num (-6#1) * (Var 23 + Var 26 / Num (2#1)) / (Site 0 * Site 0 * Site 0 * Site 0) + Num (2#1) / (Site 0 * Site 0 * Site 0);
    Num (-6#1) * (Var 23 + Var 26 / Num (2#1)) / (Site 0 * Site 0 * Site 0 * Site 0) + Num (2#1) / (Site 0 * Site 0 * Site 0) + Num (1#1) / (Site 0 * Site 0 * Site 0)];
    [Num (-6#1) * (Var 23 + Var 26 / Num (2#1)) / (Site 0 * Site 0 * Site 0 * Site 0) + Num (2#1) / (Site 0 * Site 0 * Site 0);
    Num (-6#1) * (Var 23 + Var 26 / Num (2#1)) / (Site 0 * Site 0 * Site 0 * Site 0) + Num (2#1) / (Site 0 * Site 0 * Site 0);
    Num (-6#1) * (Var 23 + Var 26 / Num (2#1)) / (Site 0 * Site 0 * Site 0 * Site 0) + Num (2#1) / (Site 0 * Site 0 * Site 0);
    Num (-6#1) * (Var 23 + Var 26 / Num (2#1)) / (Site 0 * Site 0 * Site 0 * Site 0) + Num (2#1) / (Site 0 * Site 0 * Site 0) + Num (2#1) / (Site 0 * Site 0 * Site 0);
    Num (-6#1) * (Var 23 + Var 26 / Num (2#1)) / (Site 0 * Site 0 * Site 0 * Site 0) + Num (2#1) / (Site 0 * Site 0 * Site 0);
    Num (-6#1) * (Var 23 + Var 26 / Num (2#1)) / (Site 0 * Site 0 * Site 0 * Site 0) + Num (2#1) / (Site 0 * Site 0 * Site 0);
    Num (-6#1) * (Var 23 + Var 26 / Num (2#1)) / (Site 0 * Site 0 * Site 0 * Site 0) + Num (2#1) / (Site 0 * Site 0 * Site 0) + Num (1#1) / (Site 0 * Site 0 * Site 0)];
    [Num (-6#1) * (Var 23 + Var 26 / Num (2#1)) / (Site 0 * Site 0 * Site 0 * Site 0) + Num (2#1) / (Site 0 * Site 0 * Site 0);
    Num (-6#1) * (Var 23 + Var 26 / Num (2#1)) / (Site 0 * Site 0 * Site 0 * Site 0) + Num (2#1) / (Site 0 * Site 0 * Site 0);
    Num (-6#1) * (Var 23 + Var 26 / Num (2#1)) / (Site 0 * Site 0 * Site 0 * Site 0) + Num (2#1) / (Site 0 * Site 0 * Site 0);
    Num (-6#1) * (Var 23 + Var 26 / Num (2#1)) / (Site 0 * Site 0 * Site 0 * Site 0) + Num (2#1) / (Site 0 * Site 0 * Site 0) + Num (2#1) / (Site 0 * Site 0 * Site 0);
    Num (-6#1) * (Var 23 + Var 26 / Num (2#1)) / (Site 0 * Site 0 * Site 0 * Site 0) + Num (2#1) / (Site 0 * Site 0 * Site 0);
    Num (-6#1) * (Var 23 + Var 26 / Num (2#1)) / (Site 0 * Site 0 * Site 0 * Site 0) + Num (2#1) / (Site 0 * Site 0 * Site 0);
    Num (-6#1) * (Var 23 + Var 26 / Num (2#1)) / (Site 0 * Site 0 * Site 0 * Site 0) + Num (2#1) / (Site 0 * Site 0 * Site 0) + Num (1#1) / (Site 0 * Site 0 * Site 0)];
    [Num (-6#1) * (Var 23 + Var 26 / Num (2#1)) / (Site 0 * Site 0 * Site 0 * Site 0) + Num (2#1) / (Site 0 * Site 0 * Site 0) + Num (2#1) / (Site 0 * Site 0 * Site 0);
    Num (-6#1) * (Var 23 + Var 26 / Num (2#1)) / (Site 0 * Site 0 * Site 0 * Site 0) + Num (2#1) / (Site 0 * Site 0 * Site 0) + Num (2#1) / (Site 0 * Site 0 * Site 0);
    Num (-6#1) * (Var 23 + Var 26 / Num (2#1)) / (Site 0 * Site 0 * Site 0 * Site 0) + Num (2#1) / (Site 0 * Site 0 * Site 0) + Num (2#1) / (Site 0 * Site 0 * Site 0);
    Num (-6#1) * (Var 23 + Var 26 / Num (2#1)) / (Site 0 * Site 0 * Site 0 * Site 0) + Num (2#1) / (Site 0 * Site 0 * Site 0) + Num (2#1) / (Site 0 * Site 0 * Site 0) + Num (2#1) / (Site 0 * Site 0 * Site 0);
    Num (-6#1) * (Var 23 + Var 26 / Num (2#1)) / (Site 0 * Site 0 * Site 0 * Site 0) + Num (2#1) / (Site 0 * Site 0 * Site 0) + Num (2#1) / (Site 0 * Site 0 * Site 0);
    Num (-6#1) * (Var 23 + Var 26 / Num (2#1)) / (Site 0 * Site 0 * Site 0 * Site 0) + Num (2#1) / (Site 0 * Site 0 * Site 0) + Num (2#1) / (Site 0 * Site 0 * Site 0);
    Num (-6#1) * (Var 23 + Var 26 / Num (2#1)) / (Site 0 * Site 0 * Site 0 * Site 0) + Num (2#1) / (Site 0 * Site 0 * Site 0) + Num (2#1) / (Site 0 * Site 0 * Site 0) + Num (1#1) / (Site 0 * Site 0 * Site 0)];
    [Num (-6#1) * (Var 23 + Var 26 / Num (2#1)) / (Site 0 * Site 0 * Site 0 * Site 0) + Num (2#1) / (Site 0 * Site 0 * Site 0);
    Num (-6#1) * (Var 23 + Var 26 / Num (2#1)) / (Site 0 * Site 0 * Site 0 * Site 0) + Num (2#1) / (Site 0 * Site 0 * Site 0);
    Num (-6#1) * (Var 23 + Var 26 / Num (2#1)) / (Site 0 * Site 0 * Site 0 * Site 0) + Num (2#1) / (Site 0 * Site 0 * Site 0);
    Num (-6#1) * (Var 23 + Var 26 / Num (2#1)) / (Site 0 * Site 0 * Site 0 * Site 0) + Num (2#1) / (Site 0 * Site 0 * Site 0) + Num (2#1) / (Site 0 * Site 0 * Site 0);
    Num (-6#1) * (Var 23 + Var 26 / Num (2#1)) / (Site 0 * Site 0 * Site 0 * Site 0) + Num (2#1) / (Site 0 * Site 0 * Site 0);
    Num (-6#1) * (Var 23 + Var 26 / Num (2#1)) / (Site 0 * Site 0 * Site 0 * Site 0) + Num (2#1) / (Site 0 * Site 0 * Site 0);
    Num (-6#1) * (Var 23 + Var 26 / Num (2#1)) / (Site 0 * Site 0 * Site 0 * Site 0) + Num (2#1) / (Site 0 * Site 0 * Site 0) + Num (1#1) / (Site 0 * Site 0 * Site 0)];
    [Num (-6#1) * (Var 23 + Var 26 / Num (2#1)) / (Site 0 * Site 0 * Site 0 * Site 0) + Num (2#1) / (Site 0 * Site 0 * Site 0);
    Num (-6#1) * (Var 23 + Var 26 / Num (2#1)) / (Site 0 * Site 0 * Site 0 * Site 0) + Num (2#1) / (Site 0 * Site 0 * Site 0);
    Num (-6#1) * (Var 23 + Var 26 / Num (2#1)) / (Site 0 * Site 0 * Site 0 * Site 0) + Num (2#1) / (Site 0 * Site 0 * Site 0);
    Num (-6#1) * (Var 23 + Var 26 / Num (2#1)) / (Site 0 * Site 0 * Site 0 * Site 0) + Num (2#1) / (Site 0 * Site 0 * Site 0) + Num (2#1) / (Site 0 * Site 0 * Site 0);
    Num (-6#1) * (Var 23 + Var 26 / Num (2#1)) / (Site 0 * Site 0 * Site 0 * Site 0) + Num (2#1) / (Site 0 * Site 0 * Site 0);
    Num (-6#1) * (Var 23 + Var 26 / Num (2#1)) / (Site 0 * Site 0 * Site 0 * Site 0) + Num (2#1) / (Site 0 * Site 0 * Site 0);
    Num (-6#1) * (Var 23 + Var 26 / Num (2#1)) / (Site 0 * Site 0 * Site 0 * Site 0) + Num (2#1) / (Site 0 * Site 0 * Site 0) + Num (1#1) / (Site 0 * Site 0 * Site 0)];
    [Num (-6#1) * (Var 23 + Var 26 / Num (2#1)) / (Site 0 * Site 0 * Site 0 * Site 0) + Num (2#1) / (Site 0 * Site 0 * Site 0) + Num (1#1) / (Site 0 * Site 0 * Site 0);
    Num (-6#1) * (Var 23 + Var 26 / Num (2#1)) / (Site 0 * Site 0 * Site 0 * Site 0) + Num (2#1) / (Site 0 * Site 0 * Site 0) + Num (1#1) / (Site 0 * Site 0 * Site 0);
    Num (-6#1) * (Var 23 + Var 26 / Num (2#1)) / (Site 0 * Site 0 * Site 0 * Site 0) + Num (2#1) / (Site 0 * Site 0 * Site 0) + Num (1#1) / (Site 0 * Site 0 * Site 0);
    Num (-6#1) * (Var 23 + Var 26 / Num (2#1)) / (Site 0 * Site 0 * Site 0 * Site 0) + Num (2#1) / (Site 0 * Site 0 * Site 0) + Num (2#1) / (Site 0 * Site 0 * Site 0) + Num (1#1) / (Site 0 * Site 0 * Site 0);
    Num (-6#1) * (Var 23 + Var 26 / Num (2#1)) / (Site 0 * Site 0 * Site 0 * Site 0) + Num (2#1) / (Site 0 * Site 0 * Site 0) + Num (1#1) / (Site 0 * Site 0 * Site 0);
    Num (-6#1) * (Var 23 + Var 26 / Num (2#1)) / (Site 0 * Site 0 * Site 0 * Site 0) + Num (2#1) / (Site 0 * Site 0 * Site 0) + Num (1#1) / (Site 0 * Site 0 * Site 0);
    Num (-6#1) * (Var 23 + Var 26 / Num (2#1)) / (Site 0 * Site 0 * Site 0 * Site 0) + Num (2#1) / (Site 0 * Site 0 * Site 0) + Num (1#1) / (Site 0 * Site 0 * Site 0) + Num (1#1) / (Site 0 * Site 0 * Site 0)]];
    [[Num (-6#1) * (Var 23 + Var 26 / Num (2#1)) / (Site 0 * Site 0 * Site 0 * Site 0);
    Num (-6#1) * (Var 23 + Var 26 / Num (2#1)) / (Site 0 * Site 0 * Site 0 * Site 0);
    Num (-6#1) * (Var 23 + Var 26 / Num (2#1)) / (Site 0 * Site 0 * Site 0 * Site 0);
    Num (-6#1) * (Var 23 + Var 26 / Num (2#1)) / (Site 0 * Site 0 * Site 0 * Site 0) + Num (2#1) / (Site 0 * Site 0 * Site 0);
    Num (-6#1) * (Var 23 + Var 26 / Num (2#1)) / (Site 0 * Site 0 * Site 0 * Site 0);
    Num (-6#1) * (Var 23 + Var 26 / Num (2#1)) / (Site 0 * Site 0 * Site 0 * Site 0);
    Num (-6#1) * (Var 23 + Var 26 / Num (2#1)) / (Site 0 * Site 0 * Site 0 * Site 0) + Num (1#1) / (Site 0 * Site 0 * Site 0)];
    [Num (-6#1) * (Var 23 + Var 26 / Num (2#1)) / (Site 0 * Site 0 * Site 0 * Site 0);
    Num (-6#1) * (Var 23 + Var 26 / Num (2#1)) / (Site 0 * Site 0 * Site 0 * Site 0);
    Num (-6#1) * (Var 23 + Var 26 / Num (2#1)) / (Site 0 * Site 0 * Site 0 * Site 0);
    Num (-6#1) * (Var 23 + Var 26 / Num (2#1)) / (Site 0 * Site 0 * Site 0 * Site 0) + Num (2#1) / (Site 0 * Site 0 * Site 0);
    Num (-6#1) * (Var 23 + Var 26 / Num (2#1)) / (Site 0 * Site 0 * Site 0 * Site 0);
    Num (-6#1) * (Var 23 + Var 26 / Num (2#1)) / (Site 0 * Site 0 * Site 0 * Site 0);
    Num (-6#1) * (Var 23 + Var 26 / Num (2#1)) / (Site 0 * Site 0 * Site 0 * Site 0) + Num (1#1) / (Site 0 * Site 0 * Site 0)];
    [Num (-6#1) * (Var 23 + Var 26 / Num (2#1)) / (Site 0 * Site 0 * Site 0 * Site 0);
    Num (-6#1) * (Var 23 + Var 26 / Num (2#1)) / (Site 0 * Site 0 * Site 0 * Site 0);
    Num (-6#1) * (Var 23 + Var 26 / Num (2#1)) / (Site 0 * Site 0 * Site 0 * Site 0);
    Num (-6#1) * (Var 23 + Var 26 / Num (2#1)) / (Site 0 * Site 0 * Site 0 * Site 0) + Num (2#1) / (Site 0 * Site 0 * Site 0);
    Num (-6#1) * (Var 23 + Var 26 / Num (2#1)) / (Site 0 * Site 0 * Site 0 * Site 0);
    Num (-6#1) * (Var 23 + Var 26 / Num (2#1)) / (Site 0 * Site 0 * Site 0 * Site 0);
    Num (-6#1) * (Var 23 + Var 26 / Num (2#1)) / (Site 0 * Site 0 * Site 0 * Site 0) + Num (1#1) / (Site 0 * Site 0 * Site 0)];
    [Num (-6#1) * (Var 23 + Var 26 / Num (2#1)) / (Site 0 * Site 0 * Site 0 * Site 0) + Num (2#1) / (Site 0 * Site 0 * Site 0);
    Num (-6#1) * (Var 23 + Var 26 / Num (2#1)) / (Site 0 * Site 0 * Site 0 * Site 0) + Num (2#1) / (Site 0 * Site 0 * Site 0);
    Num (-6#1) * (Var 23 + Var 26 / Num (2#1)) / (Site 0 * Site 0 * Site 0 * Site 0) + Num (2#1) / (Site 0 * Site 0 * Site 0);
    Num (-6#1) * (Var 23 + Var 26 / Num (2#1)) / (Site 0 * Site 0 * Site 0 * Site 0) + Num (2#1) / (Site 0 * Site 0 * Site 0) + Num (2#1) / (Site 0 * Site 0 * Site 0);
    Num (-6#1) * (Var 23 + Var 26 / Num (2#1)) / (Site 0 * Site 0 * Site 0 * Site 0) + Num (2#1) / (Site 0 * Site 0 * Site 0);
    Num (-6#1) * (Var 23 + Var 26 / Num (2#1)) / (Site 0 * Site 0 * Site 0 * Site 0) + Num (2#1) / (Site 0 * Site 0 * Site 0);
    Num (-6#1) * (Var 23 + Var 26 / Num (2#1)) / (Site 0 * Site 0 * Site 0 * Site 0) + Num (2#1) / (Site 0 * Site 0 * Site 0) + Num (1#1) / (Site 0 * Site 0 * Site 0)];
    [Num (-6#1) * (Var 23 + Var 26 / Num (2#1)) / (Site 0 * Site 0 * Site 0 * Site 0);
    Num (-6#1) * (Var 23 + Var 26 / Num (2#1)) / (Site 0 * Site 0 * Site 0 * Site 0);
    Num (-6#1) * (Var 23 + Var 26 / Num (2#1)) / (Site 0 * Site 0 * Site 0 * Site 0);
    Num (-6#1) * (Var 23 + Var 26 / Num (2#1)) / (Site 0 * Site 0 * Site 0 * Site 0) + Num (2#1) / (Site 0 * Site 0 * Site 0);
    Num (-6#1) * (Var 23 + Var 26 / Num (2#1)) / (Site 0 * Site 0 * Site 0 * Site 0);
    Num (-6#1) * (Var 23 + Var 26 / Num (2#1)) / (Site 0 * Site 0 * Site 0 * Site 0);
    Num (-6#1) * (Var 23 + Var 26 / Num (2#1)) / (Site 0 * Site 0 * Site 0 * Site 0) + Num (1#1) / (Site 0 * Site 0 * Site 0)];
    [Num (-6#1) * (Var 23 + Var 26 / Num (2#1)) / (Site 0 * Site 0 * Site 0 * Site 0);
    Num (-6#1) * (Var 23 + Var 26 / Num (2#1)) / (Site 0 * Site 0 * Site 0 * Site 0);
    Num (-6#1) * (Var 23 + Var 26 / Num (2#1)) / (Site 0 * Site 0 * Site 0 * Site 0);
    Num (-6#1) * (Var 23 + Var 26 / Num (2#1)) / (Site 0 * Site 0 * Site 0 * Site 0) + Num (2#1) / (Site 0 * Site 0 * Site 0);
    Num (-6#1) * (Var 23 + Var 26 / Num (2#1)) / (Site 0 * Site 0 * Site 0 * Site 0);
    Num (-6#1) * (Var 23 + Var 26 / Num (2#1)) / (Site 0 * Site 0 * Site 0 * Site 0);
    Num (-6#1) * (Var 23 + Var 26 / Num (2#1)) / (Site 0 * Site 0 * Site 0 * Site 0) + Num (1#1) / (Site 0 * Site 0 * Site 0)];
    [Num (-6#1) * (Var 23 + Var 26 / Num (2#1)) / (Site 0 * Site 0 * Site 0 * Site 0) + Num (1#1) / (Site 0 * Site 0 * Site 0);
    Num (-6#1) * (Var 23 + Var 26 / Num (2#1)) / (Site 0 * Site 0 * Site 0 * Site 0) + Num (1#1) / (Site 0 * Site 0 * Site 0);
    Num (-6#1) * (Var 23 + Var 26 / Num (2#1)) / (Site 0 * Site 0 * Site 0 * Site 0) + Num (1#1) / (Site 0 * Site 0 * Site 0);
    Num (-6#1) * (Var 23 + Var 26 / Num (2#1)) / (Site 0 * Site 0 * Site 0 * Site 0) + Num (2#1) / (Site 0 * Site 0 * Site 0) + Num (1#1) / (Site 0 * Site 0 * Site 0);
    Num (-6#1) * (Var 23 + Var 26 / Num (2#1)) / (Site 0 * Site 0 * Site 0 * Site 0) + Num (1#1) / (Site 0 * Site 0 * Site 0);
    Num (-6#1) * (Var 23 + Var 26 / Num (2#1)) / (Site 0 * Site 0 * Site 0 * Site 0) + Num (1#1) / (Site 0 * Site 0 * Site 0);
    Num (-6#1) * (Var 23 + Var 26 / Num (2#1)) / (Site 0 * Site 0 * Site 0 * Site 0) + Num (1#1) / (Site 0 * Site 0 * Site 0) + Num (1#1) / (Site 0 * Site 0 * Site 0)]];
    [[Num (-6#1) * (Var 23 + Var 26 / Num (2#1)) / (Site 0 * Site 0 * Site 0 * Site 0);
    Num (-6#1) * (Var 23 + Var 26 / Num (2#1)) / (Site 0 * Site 0 * Site 0 * Site 0);
    Num (-6#1) * (Var 23 + Var 26 / Num (2#1)) / (Site 0 * Site 0 * Site 0 * Site 0);
    Num (-6#1) * (Var 23 + Var 26 / Num (2#1)) / (Site 0 * Site 0 * Site 0 * Site 0) + Num (2#1) / (Site 0 * Site 0 * Site 0);
    Num (-6#1) * (Var 23 + Var 26 / Num (2#1)) / (Site 0 * Site 0 * Site 0 * Site 0);
    Num (-6#1) * (Var 23 + Var 26 / Num (2#1)) / (Site 0 * Site 0 * Site 0 * Site 0);
    Num (-6#1) * (Var 23 + Var 26 / Num (2#1)) / (Site 0 * Site 0 * Site 0 * Site 0) + Num (1#1) / (Site 0 * Site 0 * Site 0)];
    [Num (-6#1) * (Var 23 + Var 26 / Num (2#1)) / (Site 0 * Site 0 * Site 0 * Site 0);
    Num (-6#1) * (Var 23 + Var 26 / Num (2#1)) / (Site 0 * Site 0 * Site 0 * Site 0);
    Num (-6#1) * (Var 23 + Var 26 / Num (2#1)) / (Site 0 * Site 0 * Site 0 * Site 0);
    Num (-6#1) * (Var 23 + Var 26 / Num (2#1)) / (Site 0 * Site 0 * Site 0 * Site 0) + Num (2#1) / (Site 0 * Site 0 * Site 0);
    Num (-6#1) * (Var 23 + Var 26 / Num (2#1)) / (Site 0 * Site 0 * Site 0 * Site 0);
    Num (-6#1) * (Var 23 + Var 26 / Num (2#1)) / (Site 0 * Site 0 * Site 0 * Site 0);
    Num (-6#1) * (Var 23 + Var 26 / Num (2#1)) / (Site 0 * Site 0 * Site 0 * Site 0) + Num (1#1) / (Site 0 * Site 0 * Site 0)];
    [Num (-6#1) * (Var 23 + Var 26 / Num (2#1)) / (Site 0 * Site 0 * Site 0 * Site 0);
    Num (-6#1) * (Var 23 + Var 26 / Num (2#1)) / (Site 0 * Site 0 * Site 0 * Site 0);
    Num (-6#1) * (Var 23 + Var 26 / Num (2#1)) / (Site 0 * Site 0 * Site 0 * Site 0);
    Num (-6#1) * (Var 23 + Var 26 / Num (2#1)) / (Site 0 * Site 0 * Site 0 * Site 0) + Num (2#1) / (Site 0 * Site 0 * Site 0);
    Num (-6#1) * (Var 23 + Var 26 / Num (2#1)) / (Site 0 * Site 0 * Site 0 * Site 0);
    Num (-6#1) * (Var 23 + Var 26 / Num (2#1)) / (Site 0 * Site 0 * Site 0 * Site 0);
    Num (-6#1) * (Var 23 + Var 26 / Num (2#1)) / (Site 0 * Site 0 * Site 0 * Site 0) + Num (1#1) / (Site 0 * Site 0 * Site 0)];
    [Num (-6#1) * (Var 23 + Var 26 / Num (2#1)) / (Site 0 * Site 0 * Site 0 * Site 0) + Num (2#1) / (Site 0 * Site 0 * Site 0);
    Num (-6#1) * (Var 23 + Var 26 / Num (2#1)) / (Site 0 * Site 0 * Site 0 * Site 0) + Num (2#1) / (Site 0 * Site 0 * Site 0);
    Num (-6#1) * (Var 23 + Var 26 / Num (2#1)) / (Site 0 * Site 0 * Site 0 * Site 0) + Num (2#1) / (Site 0 * Site 0 * Site 0);
    Num (-6#1) * (Var 23 + Var 26 / Num (2#1)) / (Site 0 * Site 0 * Site 0 * Site 0) + Num (2#1) / (Site 0 * Site 0 * Site 0) + Num (2#1) / (Site 0 * Site 0 * Site 0);
    Num (-6#1) * (Var 23 + Var 26 / Num (2#1)) / (Site 0 * Site 0 * Site 0 * Site 0) + Num (2#1) / (Site 0 * Site 0 * Site 0);
    Num (-6#1) * (Var 23 + Var 26 / Num (2#1)) / (Site 0 * Site 0 * Site 0 * Site 0) + Num (2#1) / (Site 0 * Site 0 * Site 0);
    Num (-6#1) * (Var 23 + Var 26 / Num (2#1)) / (Site 0 * Site 0 * Site 0 * Site 0) + Num (2#1) / (Site 0 * Site 0 * Site 0) + Num (1#1) / (Site 0 * Site 0 * Site 0)];
    [Num (-6#1) * (Var 23 + Var 26 / Num (2#1)) / (Site 0 * Site 0 * Site 0 * Site 0);
    Num (-6#1) * (Var 23 + Var 26 / Num (2#1)) / (Site 0 * Site 0 * Site 0 * Site 0);
    Num (-6#1) * (Var 23 + Var 26 / Num (2#1)) / (Site 0 * Site 0 * Site 0 * Site 0);
    Num (-6#1) * (Var 23 + Var 26 / Num (2#1)) / (Site 0 * Site 0 * Site 0 * Site 0) + Num (2#1) / (Site 0 * Site 0 * Site 0);
    Num (-6#1) * (Var 23 + Var 26 / Num (2#1)) / (Site 0 * Site 0 * Site 0 * Site 0);
    Num (-6#1) * (Var 23 + Var 26 / Num (2#1)) / (Site 0 * Site 0 * Site 0 * Site 0);
    Num (-6#1) * (Var 23 + Var 26 / Num (2#1)) / (Site 0 * Site 0 * Site 0 * Site 0) + Num (1#1) / (Site 0 * Site 0 * Site 0)];
    [Num (-6#1) * (Var 23 + Var 26 / Num (2#1)) / (Site 0 * Site 0 * Site 0 * Site 0);
    Num (-6#1) * (Var 23 + Var 26 / Num (2#1)) / (Site 0 * Site 0 * Site 0 * Site 0);
    Num (-6#1) * (Var 23 + Var 26 / Num (2#1)) / (Site 0 * Site 0 * Site 0 * Site 0);
    Num (-6#1) * (Var 23 + Var 26 / Num (2#1)) / (Site 0 * Site 0 * Site 0 * Site 0) + Num (2#1) / (Site 0 * Site 0 * Site 0);
    Num (-6#1) * (Var 23 + Var 26 / Num (2#1)) / (Site 0 * Site 0 * Site 0 * Site 0);
    Num (-6#1) * (Var 23 + Var 26 / Num (2#1)) / (Site 0 * Site 0 * Site 0 * Site 0);
    Num (-6#1) * (Var 23 + Var 26 / Num (2#1)) / (Site 0 * Site 0 * Site 0 * Site 0) + Num (1#1) / (Site 0 * Site 0 * Site 0)];
    [Num (-6#1) * (Var 23 + Var 26 / Num (2#1)) / (Site 0 * Site 0 * Site 0 * Site 0) + Num (1#1) / (Site 0 * Site 0 * Site 0);
    Num (-6#1) * (Var 23 + Var 26 / Num (2#1)) / (Site 0 * Site 0 * Site 0 * Site 0) + Num (1#1) / (Site 0 * Site 0 * Site 0);
    Num (-6#1) * (Var 23 + Var 26 / Num (2#1)) / (Site 0 * Site 0 * Site 0 * Site 0) + Num (1#1) / (Site 0 * Site 0 * Site 0);
    Num (-6#1) * (Var 23 + Var 26 / Num (2#1)) / (Site 0 * Site 0 * Site 0 * Site 0) + Num (2#1) / (Site 0 * Site 0 * Site 0) + Num (1#1) / (Site 0 * Site 0 * Site 0);
    Num (-6#1) * (Var 23 + Var 26 / Num (2#1)) / (Site 0 * Site 0 * Site 0 * Site 0) + Num (1#1) / (Site 0 * Site 0 * Site 0);
    Num (-6#1) * (Var 23 + Var 26 / Num (2#1)) / (Site 0 * Site 0 * Site 0 * Site 0) + Num (1#1) / (Site 0 * Site 0 * Site 0);
    Num (-6#1) * (Var 23 + Var 26 / Num (2#1)) / (Site 0 * Site 0 * Site 0 * Site 0) + Num (1#1) / (Site 0 * Site 0 * Site 0) + Num (1#1) / (Site 0 * Site 0 * Site 0)]];
    [[Num (-6#1) * (Var 23 + Var 26 / Num (2#1)) / (Site 0 * Site 0 * Site 0 * Site 0) + Num (1#1) / (Site 0 * Site 0 * Site 0);
    Num (-6#1) * (Var 23 + Var 26 / Num (2#1)) / (Site 0 * Site 0 * Site 0 * Site 0) + Num (1#1) / (Site 0 * Site 0 * Site 0);
    Num (-6#1) * (Var 23 + Var 26 / Num (2#1)) / (Site 0 * Site 0 * Site 0 * Site 0) + Num (1#1) / (Site 0 * Site 0 * Site 0);
    Num (-6#1) * (Var 23 + Var 26 / Num (2#1)) / (Site 0 * Site 0 * Site 0 * Site 0) + Num (2#1) / (Site 0 * Site 0 * Site 0) + Num (1#1) / (Site 0 * Site 0 * Site 0);
    Num (-6#1) * (Var 23 + Var 26 / Num (2#1)) / (Site 0 * Site 0 * Site 0 * Site 0) + Num (1#1) / (Site 0 * Site 0 * Site 0);
    Num (-6#1) * (Var 23 + Var 26 / Num (2#1)) / (Site 0 * Site 0 * Site 0 * Site 0) + Num (1#1) / (Site 0 * Site 0 * Site 0);
    Num (-6#1) * (Var 23 + Var 26 / Num (2#1)) / (Site 0 * Site 0 * Site 0 * Site 0) + Num (1#1) / (Site 0 * Site 0 * Site 0) + Num (1#1) / (Site 0 * Site 0 * Site 0)];
    [Num (-6#1) * (Var 23 + Var 26 / Num (2#1)) / (Site 0 * Site 0 * Site 0 * Site 0) + Num (1#1) / (Site 0 * Site 0 * Site 0);
    Num (-6#1) * (Var 23 + Var 26 / Num (2#1)) / (Site 0 * Site 0 * Site 0 * Site 0) + Num (1#1) / (Site 0 * Site 0 * Site 0);
    Num (-6#1) * (Var 23 + Var 26 / Num (2#1)) / (Site 0 * Site 0 * Site 0 * Site 0) + Num (1#1) / (Site 0 * Site 0 * Site 0);
    Num (-6#1) * (Var 23 + Var 26 / Num (2#1)) / (Site 0 * Site 0 * Site 0 * Site 0) + Num (2#1) / (Site 0 * Site 0 * Site 0) + Num (1#1) / (Site 0 * Site 0 * Site 0);
    Num (-6#1) * (Var 23 + Var 26 / Num (2#1)) / (Site 0 * Site 0 * Site 0 * Site 0) + Num (1#1) / (Site 0 * Site 0 * Site 0);
    Num (-6#1) * (Var 23 + Var 26 / Num (2#1)) / (Site 0 * Site 0 * Site 0 * Site 0) + Num (1#1) / (Site 0 * Site 0 * Site 0);
    Num (-6#1) * (Var 23 + Var 26 / Num (2#1)) / (Site 0 * Site 0 * Site 0 * Site 0) + Num (1#1) / (Site 0 * Site 0 * Site 0) + Num (1#1) / (Site 0 * Site 0 * Site 0)];
    [Num (-6#1) * (Var 23 + Var 26 / Num (2#1)) / (Site 0 * Site 0 * Site 0 * Site 0) + Num (1#1) / (Site 0 * Site 0 * Site 0);
    Num (-6#1) * (Var 23 + Var 26 / Num (2#1)) / (Site 0 * Site 0 * Site 0 * Site 0) + Num (1#1) / (Site 0 * Site 0 * Site 0);
    Num (-6#1) * (Var 23 + Var 26 / Num (2#1)) / (Site 0 * Site 0 * Site 0 * Site 0) + Num (1#1) / (Site 0 * Site 0 * Site 0);
    Num (-6#1) * (Var 23 + Var 26 / Num (2#1)) / (Site 0 * Site 0 * Site 0 * Site 0) + Num (2#1) / (Site 0 * Site 0 * Site 0) + Num (1#1) / (Site 0 * Site 0 * Site 0);
    Num (-6#1) * (Var 23 + Var 26 / Num (2#1)) / (Site 0 * Site 0 * Site 0 * Site 0) + Num (1#1) / (Site 0 * Site 0 * Site 0);
    Num (-6#1) * (Var 23 + Var 26 / Num (2#1)) / (Site 0 * Site 0 * Site 0 * Site 0) + Num (1#1) / (Site 0 * Site 0 * Site 0);
    Num (-6#1) * (Var 23 + Var 26 / Num (2#1)) / (Site 0 * Site 0 * Site 0 * Site 0) + Num (1#1) / (Site 0 * Site 0 * Site 0) + Num (1#1) / (Site 0 * Site 0 * Site 0)];
    [Num (-6#1) * (Var 23 + Var 26 / Num (2#1)) / (Site 0 * Site 0 * Site 0 * Site 0) + Num (2#1) / (Site 0 * Site 0 * Site 0) + Num (1#1) / (Site 0 * Site 0 * Site 0);
    Num (-6#1) * (Var 23 + Var 26 / Num (2#1)) / (Site 0 * Site 0 * Site 0 * Site 0) + Num (2#1) / (Site 0 * Site 0 * Site 0) + Num (1#1) / (Site 0 * Site 0 * Site 0);
    Num (-6#1) * (Var 23 + Var 26 / Num (2#1)) / (Site 0 * Site 0 * Site 0 * Site 0) + Num (2#1) / (Site 0 * Site 0 * Site 0) + Num (1#1) / (Site 0 * Site 0 * Site 0);
    Num (-6#1) * (Var 23 + Var 26 / Num (2#1)) / (Site 0 * Site 0 * Site 0 * Site 0) + Num (2#1) / (Site 0 * Site 0 * Site 0) + Num (2#1) / (Site 0 * Site 0 * Site 0) + Num (1#1) / (Site 0 * Site 0 * Site 0);
    Num (-6#1) * (Var 23 + Var 26 / Num (2#1)) / (Site 0 * Site 0 * Site 0 * Site 0) + Num (2#1) / (Site 0 * Site 0 * Site 0) + Num (1#1) / (Site 0 * Site 0 * Site 0);
    Num (-6#1) * (Var 23 + Var 26 / Num (2#1)) / (Site 0 * Site 0 * Site 0 * Site 0) + Num (2#1) / (Site 0 * Site 0 * Site 0) + Num (1#1) / (Site 0 * Site 0 * Site 0);
    Num (-6#1) * (Var 23 + Var 26 / Num (2#1)) / (Site 0 * Site 0 * Site 0 * Site 0) + Num (2#1) / (Site 0 * Site 0 * Site 0) + Num (1#1) / (Site 0 * Site 0 * Site 0) + Num (1#1) / (Site 0 * Site 0 * Site 0)];
    [Num (-6#1) * (Var 23 + Var 26 / Num (2#1)) / (Site 0 * Site 0 * Site 0 * Site 0) + Num (1#1) / (Site 0 * Site 0 * Site 0);
    Num (-6#1) * (Var 23 + Var 26 / Num (2#1)) / (Site 0 * Site 0 * Site 0 * Site 0) + Num (1#1) / (Site 0 * Site 0 * Site 0);
    Num (-6#1) * (Var 23 + Var 26 / Num (2#1)) / (Site 0 * Site 0 * Site 0 * Site 0) + Num (1#1) / (Site 0 * Site 0 * Site 0);
    Num (-6#1) * (Var 23 + Var 26 / Num (2#1)) / (Site 0 * Site 0 * Site 0 * Site 0) + Num (2#1) / (Site 0 * Site 0 * Site 0) + Num (1#1) / (Site 0 * Site 0 * Site 0);
    Num (-6#1) * (Var 23 + Var 26 / Num (2#1)) / (Site 0 * Site 0 * Site 0 * Site 0) + Num (1#1) / (Site 0 * Site 0 * Site 0);
    Num (-6#1) * (Var 23 + Var 26 / Num (2#1)) / (Site 0 * Site 0 * Site 0 * Site 0) + Num (1#1) / (Site 0 * Site 0 * Site 0);
    Num (-6#1) * (Var 23 + Var 26 / Num (2#1)) / (Site 0 * Site 0 * Site 0 * Site 0) + Num (1#1) / (Site 0 * Site 0 * Site 0) + Num (1#1) / (Site 0 * Site 0 * Site 0)];
    [Num (-6#1) * (Var 23 + Var 26 / Num (2#1)) / (Site 0 * Site 0 * Site 0 * Site 0) + Num (1#1) / (Site 0 * Site 0 * Site 0);
    Num (-6#1) * (Var 23 + Var 26 / Num (2#1)) / (Site 0 * Site 0 * Site 0 * Site 0) + Num (1#1) / (Site 0 * Site 0 * Site 0);
    Num (-6#1) * (Var 23 + Var 26 / Num (2#1)) / (Site 0 * Site 0 * Site 0 * Site 0) + Num (1#1) / (Site 0 * Site 0 * Site 0);
    Num (-6#1) * (Var 23 + Var 26 / Num (2#1)) / (Site 0 * Site 0 * Site 0 * Site 0) + Num (2#1) / (Site 0 * Site 0 * Site 0) + Num (1#1) / (Site 0 * Site 0 * Site 0);
    Num (-6#1) * (Var 23 + Var 26 / Num (2#1)) / (Site 0 * Site 0 * Site 0 * Site 0) + Num (1#1) / (Site 0 * Site 0 * Site 0);
    Num (-6#1) * (Var 23 + Var 26 / Num (2#1)) / (Site 0 * Site 0 * Site 0 * Site 0) + Num (1#1) / (Site 0 * Site 0 * Site 0);
    Num (-6#1) * (Var 23 + Var 26 / Num (2#1)) / (Site 0 * Site 0 * Site 0 * Site 0) + Num (1#1) / (Site 0 * Site 0 * Site 0) + Num (1#1) / (Site 0 * Site 0 * Site 0)];
    [Num (-6#1) * (Var 23 + Var 26 / Num (2#1)) / (Site 0 * Site 0 * Site 0 * Site 0) + Num (1#1) / (Site 0 * Site 0 * Site 0) + Num (1#1) / (Site 0 * Site 0 * Site 0);
    Num (-6#1) * (Var 23 + Var 26 / Num (2#1)) / (Site 0 * Site 0 * Site 0 * Site 0) + Num (1#1) / (Site 0 * Site 0 * Site 0) + Num (1#1) / (Site 0 * Site 0 * Site 0);
    Num (-6#1) * (Var 23 + Var 26 / Num (2#1)) / (Site 0 * Site 0 * Site 0 * Site 0) + Num (1#1) / (Site 0 * Site 0 * Site 0) + Num (1#1) / (Site 0 * Site 0 * Site 0);
    Num (-6#1) * (Var 23 + Var 26 / Num (2#1)) / (Site 0 * Site 0 * Site 0 * Site 0) + Num (2#1) / (Site 0 * Site 0 * Site 0) + Num (1#1) / (Site 0 * Site 0 * Site 0) + Num (1#1) / (Site 0 * Site 0 * Site 0);
    Num (-6#1) * (Var 23 + Var 26 / Num (2#1)) / (Site 0 * Site 0 * Site 0 * Site 0) + Num (1#1) / (Site 0 * Site 0 * Site 0) + Num (1#1) / (Site 0 * Site 0 * Site 0);
    Num (-6#1) * (Var 23 + Var 26 / Num (2#1)) / (Site 0 * Site 0 * Site 0 * Site 0) + Num (1#1) / (Site 0 * Site 0 * Site 0) + Num (1#1) / (Site 0 * Site 0 * Site 0);
    Num (-6#1) * (Var 23 + Var 26 / Num (2#1)) / (Site 0 * Site 0 * Site 0 * Site 0) + Num (1#1) / (Site 0 * Site 0 * Site 0) + Num (1#1) / (Site 0 * Site 0 * Site 0) + Num (1#1) / (Site 0 * Site 0 * Site 0)]]];
    [[[Num (-6#1) * (Var 24 - Var 26 / Num (2#1)) / (Site 0 * Site 0 * Site 0 * Site 0);
    Num (-6#1) * (Var 24 - Var 26 / Num (2#1)) / (Site 0 * Site 0 * Site 0 * Site 0);
    Num (-6#1) * (Var 24 - Var 26 / Num (2#1)) / (Site 0 * Site 0 * Site 0 * Site 0);
    Num (-6#1) * (Var 24 - Var 26 / Num (2#1)) / (Site 0 * Site 0 * Site 0 * Site 0);
    Num (-6#1) * (Var 24 - Var 26 / Num (2#1)) / (Site 0 * Site 0 * Site 0 * Site 0) + Num (2#1) / (Site 0 * Site 0 * Site 0);
    Num (-6#1) * (Var 24 - Var 26 / Num (2#1)) / (Site 0 * Site 0 * Site 0 * Site 0);
    Num (-6#1) * (Var 24 - Var 26 / Num (2#1)) / (Site 0 * Site 0 * Site 0 * Site 0) - Num (1#1) / (Site 0 * Site 0 * Site 0)];
    [Num (-6#1) * (Var 24 - Var 26 / Num (2#1)) / (Site 0 * Site 0 * Site 0 * Site 0);
    Num (-6#1) * (Var 24 - Var 26 / Num (2#1)) / (Site 0 * Site 0 * Site 0 * Site 0);
    Num (-6#1) * (Var 24 - Var 26 / Num (2#1)) / (Site 0 * Site 0 * Site 0 * Site 0);
    Num (-6#1) * (Var 24 - Var 26 / Num (2#1)) / (Site 0 * Site 0 * Site 0 * Site 0);
    Num (-6#1) * (Var 24 - Var 26 / Num (2#1)) / (Site 0 * Site 0 * Site 0 * Site 0) + Num (2#1) / (Site 0 * Site 0 * Site 0);
    Num (-6#1) * (Var 24 - Var 26 / Num (2#1)) / (Site 0 * Site 0 * Site 0 * Site 0);
    Num (-6#1) * (Var 24 - Var 26 / Num (2#1)) / (Site 0 * Site 0 * Site 0 * Site 0) - Num (1#1) / (Site 0 * Site 0 * Site 0)];
    [Num (-6#1) * (Var 24 - Var 26 / Num (2#1)) / (Site 0 * Site 0 * Site 0 * Site 0);
    Num (-6#1) * (Var 24 - Var 26 / Num (2#1)) / (Site 0 * Site 0 * Site 0 * Site 0);
    Num (-6#1) * (Var 24 - Var 26 / Num (2#1)) / (Site 0 * Site 0 * Site 0 * Site 0);
    Num (-6#1) * (Var 24 - Var 26 / Num (2#1)) / (Site 0 * Site 0 * Site 0 * Site 0);
    Num (-6#1) * (Var 24 - Var 26 / Num (2#1)) / (Site 0 * Site 0 * Site 0 * Site 0) + Num (2#1) / (Site 0 * Site 0 * Site 0);
    Num (-6#1) * (Var 24 - Var 26 / Num (2#1)) / (Site 0 * Site 0 * Site 0 * Site 0);
    Num (-6#1) * (Var 24 - Var 26 / Num (2#1)) / (Site 0 * Site 0 * Site 0 * Site 0) - Num (1#1) / (Site 0 * Site 0 * Site 0)];
    [Num (-6#1) * (Var 24 - Var 26 / Num (2#1)) / (Site 0 * Site 0 * Site 0 * Site 0);
    Num (-6#1) * (Var 24 - Var 26 / Num (2#1)) / (Site 0 * Site 0 * Site 0 * Site 0);
    Num (-6#1) * (Var 24 - Var 26 / Num (2#1)) / (Site 0 * Site 0 * Site 0 * Site 0);
    Num (-6#1) * (Var 24 - Var 26 / Num (2#1)) / (Site 0 * Site 0 * Site 0 * Site 0);
    Num (-6#1) * (Var 24 - Var 26 / Num (2#1)) / (Site 0 * Site 0 * Site 0 * Site 0) + Num (2#1) / (Site 0 * Site 0 * Site 0);
    Num (-6#1) * (Var 24 - Var 26 / Num (2#1)) / (Site 0 * Site 0 * Site 0 * Site 0);
    Num (-6#1) * (Var 24 - Var 26 / Num (2#1)) / (Site 0 * Site 0 * Site 0 * Site 0) - Num (1#1) / (Site 0 * Site 0 * Site 0)];
    [Num (-6#1) * (Var 24 - Var 26 / Num (2#1)) / (Site 0 * Site 0 * Site 0 * Site 0) + Num (2#1) / (Site 0 * Site 0 * Site 0);
    Num (-6#1) * (Var 24 - Var 26 / Num (2#1)) / (Site 0 * Site 0 * Site 0 * Site 0) + Num (2#1) / (Site 0 * Site 0 * Site 0);
    Num (-6#1) * (Var 24 - Var 26 / Num (2#1)) / (Site 0 * Site 0 * Site 0 * Site 0) + Num (2#1) / (Site 0 * Site 0 * Site 0);
    Num (-6#1) * (Var 24 - Var 26 / Num (2#1)) / (Site 0 * Site 0 * Site 0 * Site 0) + Num (2#1) / (Site 0 * Site 0 * Site 0);
    Num (-6#1) * (Var 24 - Var 26 / Num (2#1)) / (Site 0 * Site 0 * Site 0 * Site 0) + Num (2#1) / (Site 0 * Site 0 * Site 0) + Num (2#1) / (Site 0 * Site 0 * Site 0);
    Num (-6#1) * (Var 24 - Var 26 / Num (2#1)) / (Site 0 * Site 0 * Site 0 * Site 0) + Num (2#1) / (Site 0 * Site 0 * Site 0);
    Num (-6#1) * (Var 24 - Var 26 / Num (2#1)) / (Site 0 * Site 0 * Site 0 * Site 0) + Num (2#1) / (Site 0 * Site 0 * Site 0) - Num (1#1) / (Site 0 * Site 0 * Site 0)];
    [Num (-6#1) * (Var 24 - Var 26 / Num (2#1)) / (Site 0 * Site 0 * Site 0 * Site 0);
    Num (-6#1) * (Var 24 - Var 26 / Num (2#1)) / (Site 0 * Site 0 * Site 0 * Site 0);
    Num (-6#1) * (Var 24 - Var 26 / Num (2#1)) / (Site 0 * Site 0 * Site 0 * Site 0);
    Num (-6#1) * (Var 24 - Var 26 / Num (2#1)) / (Site 0 * Site 0 * Site 0 * Site 0);
    Num (-6#1) * (Var 24 - Var 26 / Num (2#1)) / (Site 0 * Site 0 * Site 0 * Site 0) + Num (2#1) / (Site 0 * Site 0 * Site 0);
    Num (-6#1) * (Var 24 - Var 26 / Num (2#1)) / (Site 0 * Site 0 * Site 0 * Site 0);
    Num (-6#1) * (Var 24 - Var 26 / Num (2#1)) / (Site 0 * Site 0 * Site 0 * Site 0) - Num (1#1) / (Site 0 * Site 0 * Site 0)];
    [Num (-6#1) * (Var 24 - Var 26 / Num (2#1)) / (Site 0 * Site 0 * Site 0 * Site 0) - Num (1#1) / (Site 0 * Site 0 * Site 0);
    Num (-6#1) * (Var 24 - Var 26 / Num (2#1)) / (Site 0 * Site 0 * Site 0 * Site 0) - Num (1#1) / (Site 0 * Site 0 * Site 0);
    Num (-6#1) * (Var 24 - Var 26 / Num (2#1)) / (Site 0 * Site 0 * Site 0 * Site 0) - Num (1#1) / (Site 0 * Site 0 * Site 0);
    Num (-6#1) * (Var 24 - Var 26 / Num (2#1)) / (Site 0 * Site 0 * Site 0 * Site 0) - Num (1#1) / (Site 0 * Site 0 * Site 0);
    Num (-6#1) * (Var 24 - Var 26 / Num (2#1)) / (Site 0 * Site 0 * Site 0 * Site 0) + Num (2#1) / (Site 0 * Site 0 * Site 0) - Num (1#1) / (Site 0 * Site 0 * Site 0);
    Num (-6#1) * (Var 24 - Var 26 / Num (2#1)) / (Site 0 * Site 0 * Site 0 * Site 0) - Num (1#1) / (Site 0 * Site 0 * Site 0);
    Num (-6#1) * (Var 24 - Var 26 / Num (2#1)) / (Site 0 * Site 0 * Site 0 * Site 0) - Num (1#1) / (Site 0 * Site 0 * Site 0) - Num (1#1) / (Site 0 * Site 0 * Site 0)]];
    [[Num (-6#1) * (Var 24 - Var 26 / Num (2#1)) / (Site 0 * Site 0 * Site 0 * Site 0);
    Num (-6#1) * (Var 24 - Var 26 / Num (2#1)) / (Site 0 * Site 0 * Site 0 * Site 0);
    Num (-6#1) * (Var 24 - Var 26 / Num (2#1)) / (Site 0 * Site 0 * Site 0 * Site 0);
    Num (-6#1) * (Var 24 - Var 26 / Num (2#1)) / (Site 0 * Site 0 * Site 0 * Site 0);
    Num (-6#1) * (Var 24 - Var 26 / Num (2#1)) / (Site 0 * Site 0 * Site 0 * Site 0) + Num (2#1) / (Site 0 * Site 0 * Site 0);
    Num (-6#1) * (Var 24 - Var 26 / Num (2#1)) / (Site 0 * Site 0 * Site 0 * Site 0);
    Num (-6#1) * (Var 24 - Var 26 / Num (2#1)) / (Site 0 * Site 0 * Site 0 * Site 0) - Num (1#1) / (Site 0 * Site 0 * Site 0)];
    [Num (-6#1) * (Var 24 - Var 26 / Num (2#1)) / (Site 0 * Site 0 * Site 0 * Site 0);
    Num (-6#1) * (Var 24 - Var 26 / Num (2#1)) / (Site 0 * Site 0 * Site 0 * Site 0);
    Num (-6#1) * (Var 24 - Var 26 / Num (2#1)) / (Site 0 * Site 0 * Site 0 * Site 0);
    Num (-6#1) * (Var 24 - Var 26 / Num (2#1)) / (Site 0 * Site 0 * Site 0 * Site 0);
    Num (-6#1) * (Var 24 - Var 26 / Num (2#1)) / (Site 0 * Site 0 * Site 0 * Site 0) + Num (2#1) / (Site 0 * Site 0 * Site 0);
    Num (-6#1) * (Var 24 - Var 26 / Num (2#1)) / (Site 0 * Site 0 * Site 0 * Site 0);
    Num (-6#1) * (Var 24 - Var 26 / Num (2#1)) / (Site 0 * Site 0 * Site 0 * Site 0) - Num (1#1) / (Site 0 * Site 0 * Site 0)];
    [Num (-6#1) * (Var 24 - Var 26 / Num (2#1)) / (Site 0 * Site 0 * Site 0 * Site 0);
    Num (-6#1) * (Var 24 - Var 26 / Num (2#1)) / (Site 0 * Site 0 * Site 0 * Site 0);
    Num (-6#1) * (Var 24 - Var 26 / Num (2#1)) / (Site 0 * Site 0 * Site 0 * Site 0);
    Num (-6#1) * (Var 24 - Var 26 / Num (2#1)) / (Site 0 * Site 0 * Site 0 * Site 0);
    Num (-6#1) * (Var 24 - Var 26 / Num (2#1)) / (Site 0 * Site 0 * Site 0 * Site 0) + Num (2#1) / (Site 0 * Site 0 * Site 0);
    Num (-6#1) * (Var 24 - Var 26 / Num (2#1)) / (Site 0 * Site 0 * Site 0 * Site 0);
    Num (-6#1) * (Var 24 - Var 26 / Num (2#1)) / (Site 0 * Site 0 * Site 0 * Site 0) - Num (1#1) / (Site 0 * Site 0 * Site 0)];
    [Num (-6#1) * (Var 24 - Var 26 / Num (2#1)) / (Site 0 * Site 0 * Site 0 * Site 0);
    Num (-6#1) * (Var 24 - Var 26 / Num (2#1)) / (Site 0 * Site 0 * Site 0 * Site 0);
    Num (-6#1) * (Var 24 - Var 26 / Num (2#1)) / (Site 0 * Site 0 * Site 0 * Site 0);
    Num (-6#1) * (Var 24 - Var 26 / Num (2#1)) / (Site 0 * Site 0 * Site 0 * Site 0);
    Num (-6#1) * (Var 24 - Var 26 / Num (2#1)) / (Site 0 * Site 0 * Site 0 * Site 0) + Num (2#1) / (Site 0 * Site 0 * Site 0);
    Num (-6#1) * (Var 24 - Var 26 / Num (2#1)) / (Site 0 * Site 0 * Site 0 * Site 0);
    Num (-6#1) * (Var 24 - Var 26 / Num (2#1)) / (Site 0 * Site 0 * Site 0 * Site 0) - Num (1#1) / (Site 0 * Site 0 * Site 0)];
    [Num (-6#1) * (Var 24 - Var 26 / Num (2#1)) / (Site 0 * Site 0 * Site 0 * Site 0) + Num (2#1) / (Site 0 * Site 0 * Site 0);
    Num (-6#1) * (Var 24 - Var 26 / Num (2#1)) / (Site 0 * Site 0 * Site 0 * Site 0) + Num (2#1) / (Site 0 * Site 0 * Site 0);
    Num (-6#1) * (Var 24 - Var 26 / Num (2#1)) / (Site 0 * Site 0 * Site 0 * Site 0) + Num (2#1) / (Site 0 * Site 0 * Site 0);
    Num (-6#1) * (Var 24 - Var 26 / Num (2#1)) / (Site 0 * Site 0 * Site 0 * Site 0) + Num (2#1) / (Site 0 * Site 0 * Site 0);
    Num (-6#1) * (Var 24 - Var 26 / Num (2#1)) / (Site 0 * Site 0 * Site 0 * Site 0) + Num (2#1) / (Site 0 * Site 0 * Site 0) + Num (2#1) / (Site 0 * Site 0 * Site 0);
    Num (-6#1) * (Var 24 - Var 26 / Num (2#1)) / (Site 0 * Site 0 * Site 0 * Site 0) + Num (2#1) / (Site 0 * Site 0 * Site 0);
    Num (-6#1) * (Var 24 - Var 26 / Num (2#1)) / (Site 0 * Site 0 * Site 0 * Site 0) + Num (2#1) / (Site 0 * Site 0 * Site 0) - Num (1#1) / (Site 0 * Site 0 * Site 0)];
    [Num (-6#1) * (Var 24 - Var 26 / Num (2#1)) / (Site 0 * Site 0 * Site 0 * Site 0);
    Num (-6#1) * (Var 24 - Var 26 / Num (2#1)) / (Site 0 * Site 0 * Site 0 * Site 0);
    Num (-6#1) * (Var 24 - Var 26 / Num (2#1)) / (Site 0 * Site 0 * Site 0 * Site 0);
    Num (-6#1) * (Var 24 - Var 26 / Num (2#1)) / (Site 0 * Site 0 * Site 0 * Site 0);
    Num (-6#1) * (Var 24 - Var 26 / Num (2#1)) / (Site 0 * Site 0 * Site 0 * Site 0) + Num (2#1) / (Site 0 * Site 0 * Site 0);
    Num (-6#1) * (Var 24 - Var 26 / Num (2#1)) / (Site 0 * Site 0 * Site 0 * Site 0);
    Num (-6#1) * (Var 24 - Var 26 / Num (2#1)) / (Site 0 * Site 0 * Site 0 * Site 0) - Num (1#1) / (Site 0 * Site 0 * Site 0)];
    [Num (-6#1) * (Var 24 - Var 26 / Num (2#1)) / (Site 0 * Site 0 * Site 0 * Site 0) - Num (1#1) / (Site 0 * Site 0 * Site 0);
    Num (-6#1) * (Var 24 - Var 26 / Num (2#1)) / (Site 0 * Site 0 * Site 0 * Site 0) - Num (1#1) / (Site 0 * Site 0 * Site 0);
    Num (-6#1) * (Var 24 - Var 26 / Num (2#1)) / (Site 0 * Site 0 * Site 0 * Site 0) - Num (1#1) / (Site 0 * Site 0 * Site 0);
    Num (-6#1) * (Var 24 - Var 26 / Num (2#1)) / (Site 0 * Site 0 * Site 0 * Site 0) - Num (1#1) / (Site 0 * Site 0 * Site 0);
    Num (-6#1) * (Var 24 - Var 26 / Num (2#1)) / (Site 0 * Site 0 * Site 0 * Site 0) + Num (2#1) / (Site 0 * Site 0 * Site 0) - Num (1#1) / (Site 0 * Site 0 * Site 0);
    Num (-6#1) * (Var 24 - Var 26 / Num (2#1)) / (Site 0 * Site 0 * Site 0 * Site 0) - Num (1#1) / (Site 0 * Site 0 * Site 0);
    Num (-6#1) * (Var 24 - Var 26 / Num (2#1)) / (Site 0 * Site 0 * Site 0 * Site 0) - Num (1#1) / (Site 0 * Site 0 * Site 0) - Num (1#1) / (Site 0 * Site 0 * Site 0)]];
    [[Num (-6#1) * (Var 24 - Var 26 / Num (2#1)) / (Site 0 * Site 0 * Site 0 * Site 0);
    Num (-6#1) * (Var 24 - Var 26 / Num (2#1)) / (Site 0 * Site 0 * Site 0 * Site 0);
    Num (-6#1) * (Var 24 - Var 26 / Num (2#1)) / (Site 0 * Site 0 * Site 0 * Site 0);
    Num (-6#1) * (Var 24 - Var 26 / Num (2#1)) / (Site 0 * Site 0 * Site 0 * Site 0);
    Num (-6#1) * (Var 24 - Var 26 / Num (2#1)) / (Site 0 * Site 0 * Site 0 * Site 0) + Num (2#1) / (Site 0 * Site 0 * Site 0);
    Num (-6#1) * (Var 24 - Var 26 / Num (2#1)) / (Site 0 * Site 0 * Site 0 * Site 0);
    Num (-6#1) * (Var 24 - Var 26 / Num (2#1)) / (Site 0 * Site 0 * Site 0 * Site 0) - Num (1#1) / (Site 0 * Site 0 * Site 0)];
    [Num (-6#1) * (Var 24 - Var 26 / Num (2#1)) / (Site 0 * Site 0 * Site 0 * Site 0);
    Num (-6#1) * (Var 24 - Var 26 / Num (2#1)) / (Site 0 * Site 0 * Site 0 * Site 0);
    Num (-6#1) * (Var 24 - Var 26 / Num (2#1)) / (Site 0 * Site 0 * Site 0 * Site 0);
    Num (-6#1) * (Var 24 - Var 26 / Num (2#1)) / (Site 0 * Site 0 * Site 0 * Site 0);
    Num (-6#1) * (Var 24 - Var 26 / Num (2#1)) / (Site 0 * Site 0 * Site 0 * Site 0) + Num (2#1) / (Site 0 * Site 0 * Site 0);
    Num (-6#1) * (Var 24 - Var 26 / Num (2#1)) / (Site 0 * Site 0 * Site 0 * Site 0);
    Num (-6#1) * (Var 24 - Var 26 / Num (2#1)) / (Site 0 * Site 0 * Site 0 * Site 0) - Num (1#1) / (Site 0 * Site 0 * Site 0)];
    [Num (-6#1) * (Var 24 - Var 26 / Num (2#1)) / (Site 0 * Site 0 * Site 0 * Site 0);
    Num (-6#1) * (Var 24 - Var 26 / Num (2#1)) / (Site 0 * Site 0 * Site 0 * Site 0);
    Num (-6#1) * (Var 24 - Var 26 / Num (2#1)) / (Site 0 * Site 0 * Site 0 * Site 0);
    Num (-6#1) * (Var 24 - Var 26 / Num (2#1)) / (Site 0 * Site 0 * Site 0 * Site 0);
    Num (-6#1) * (Var 24 - Var 26 / Num (2#1)) / (Site 0 * Site 0 * Site 0 * Site 0) + Num (2#1) / (Site 0 * Site 0 * Site 0);
    Num (-6#1) * (Var 24 - Var 26 / Num (2#1)) / (Site 0 * Site 0 * Site 0 * Site 0);
    Num (-6#1) * (Var 24 - Var 26 / Num (2#1)) / (Site 0 * Site 0 * Site 0 * Site 0) - Num (1#1) / (Site 0 * Site 0 * Site 0)];
    [Num (-6#1) * (Var 24 - Var 26 / Num (2#1)) / (Site 0 * Site 0 * Site 0 * Site 0);
    Num (-6#1) * (Var 24 - Var 26 / Num (2#1)) / (Site 0 * Site 0 * Site 0 * Site 0);
    Num (-6#1) * (Var 24 - Var 26 / Num (2#1)) / (Site 0 * Site 0 * Site 0 * Site 0);
    Num (-6#1) * (Var 24 - Var 26 / Num (2#1)) / (Site 0 * Site 0 * Site 0 * Site 0);
    Num (-6#1) * (Var 24 - Var 26 / Num (2#1)) / (Site 0 * Site 0 * Site 0 * Site 0) + Num (2#1) / (Site 0 * Site 0 * Site 0);
    Num (-6#1) * (Var 24 - Var 26 / Num (2#1)) / (Site 0 * Site 0 * Site 0 * Site 0);
    Num (-6#1) * (Var 24 - Var 26 / Num (2#1)) / (Site 0 * Site 0 * Site 0 * Site 0) - Num (1#1) / (Site 0 * Site 0 * Site 0)];
    [Num (-6#1) * (Var 24 - Var 26 / Num (2#1)) / (Site 0 * Site 0 * Site 0 * Site 0) + Num (2#1) / (Site 0 * Site 0 * Site 0);
    Num (-6#1) * (Var 24 - Var 26 / Num (2#1)) / (Site 0 * Site 0 * Site 0 * Site 0) + Num (2#1) / (Site 0 * Site 0 * Site 0);
    Num (-6#1) * (Var 24 - Var 26 / Num (2#1)) / (Site 0 * Site 0 * Site 0 * Site 0) + Num (2#1) / (Site 0 * Site 0 * Site 0);
    Num (-6#1) * (Var 24 - Var 26 / Num (2#1)) / (Site 0 * Site 0 * Site 0 * Site 0) + Num (2#1) / (Site 0 * Site 0 * Site 0);
    Num (-6#1) * (Var 24 - Var 26 / Num (2#1)) / (Site 0 * Site 0 * Site 0 * Site 0) + Num (2#1) / (Site 0 * Site 0 * Site 0) + Num (2#1) / (Site 0 * Site 0 * Site 0);
    Num (-6#1) * (Var 24 - Var 26 / Num (2#1)) / (Site 0 * Site 0 * Site 0 * Site 0) + Num (2#1) / (Site 0 * Site 0 * Site 0);
    Num (-6#1) * (Var 24 - Var 26 / Num (2#1)) / (Site 0 * Site 0 * Site 0 * Site 0) + Num (2#1) / (Site 0 * Site 0 * Site 0) - Num (1#1) / (Site 0 * Site 0 * Site 0)];
    [Num (-6#1) * (Var 24 - Var 26 / Num (2#1)) / (Site 0 * Site 0 * Site 0 * Site 0);
    Num (-6#1) * (Var 24 - Var 26 / Num (2#1)) / (Site 0 * Site 0 * Site 0 * Site 0);
    Num (-6#1) * (Var 24 - Var 26 / Num (2#1)) / (Site 0 * Site 0 * Site 0 * Site 0);
    Num (-6#1) * (Var 24 - Var 26 / Num (2#1)) / (Site 0 * Site 0 * Site 0 * Site 0);
    Num (-6#1) * (Var 24 - Var 26 / Num (2#1)) / (Site 0 * Site 0 * Site 0 * Site 0) + Num (2#1) / (Site 0 * Site 0 * Site 0);
    Num (-6#1) * (Var 24 - Var 26 / Num (2#1)) / (Site 0 * Site 0 * Site 0 * Site 0);
    Num (-6#1) * (Var 24 - Var 26 / Num (2#1)) / (Site 0 * Site 0 * Site 0 * Site 0) - Num (1#1) / (Site 0 * Site 0 * Site 0)];
    [Num (-6#1) * (Var 24 - Var 26 / Num (2#1)) / (Site 0 * Site 0 * Site 0 * Site 0) - Num (1#1) / (Site 0 * Site 0 * Site 0);
    Num (-6#1) * (Var 24 - Var 26 / Num (2#1)) / (Site 0 * Site 0 * Site 0 * Site 0) - Num (1#1) / (Site 0 * Site 0 * Site 0);
    Num (-6#1) * (Var 24 - Var 26 / Num (2#1)) / (Site 0 * Site 0 * Site 0 * Site 0) - Num (1#1) / (Site 0 * Site 0 * Site 0);
    Num (-6#1) * (Var 24 - Var 26 / Num (2#1)) / (Site 0 * Site 0 * Site 0 * Site 0) - Num (1#1) / (Site 0 * Site 0 * Site 0);
    Num (-6#1) * (Var 24 - Var 26 / Num (2#1)) / (Site 0 * Site 0 * Site 0 * Site 0) + Num (2#1) / (Site 0 * Site 0 * Site 0) - Num (1#1) / (Site 0 * Site 0 * Site 0);
    Num (-6#1) * (Var 24 - Var 26 / Num (2#1)) / (Site 0 * Site 0 * Site 0 * Site 0) - Num (1#1) / (Site 0 * Site 0 * Site 0);
    Num (-6#1) * (Var 24 - Var 26 / Num (2#1)) / (Site 0 * Site 0 * Site 0 * Site 0) - Num (1#1) / (Site 0 * Site 0 * Site 0) - Num (1#1) / (Site 0 * Site 0 * Site 0)]];
    [[Num (-6#1) * (Var 24 - Var 26 / Num (2#1)) / (Site 0 * Site 0 * Site 0 * Site 0);
    Num (-6#1) * (Var 24 - Var 26 / Num (2#1)) / (Site 0 * Site 0 * Site 0 * Site 0);
    Num (-6#1) * (Var 24 - Var 26 / Num (2#1)) / (Site 0 * Site 0 * Site 0 * Site 0);
    Num (-6#1) * (Var 24 - Var 26 / Num (2#1)) / (Site 0 * Site 0 * Site 0 * Site 0);
    Num (-6#1) * (Var 24 - Var 26 / Num (2#1)) / (Site 0 * Site 0 * Site 0 * Site 0) + Num (2#1) / (Site 0 * Site 0 * Site 0);
    Num (-6#1) * (Var 24 - Var 26 / Num (2#1)) / (Site 0 * Site 0 * Site 0 * Site 0);
    Num (-6#1) * (Var 24 - Var 26 / Num (2#1)) / (Site 0 * Site 0 * Site 0 * Site 0) - Num (1#1) / (Site 0 * Site 0 * Site 0)];
    [Num (-6#1) * (Var 24 - Var 26 / Num (2#1)) / (Site 0 * Site 0 * Site 0 * Site 0);
    Num (-6#1) * (Var 24 - Var 26 / Num (2#1)) / (Site 0 * Site 0 * Site 0 * Site 0);
    Num (-6#1) * (Var 24 - Var 26 / Num (2#1)) / (Site 0 * Site 0 * Site 0 * Site 0);
    Num (-6#1) * (Var 24 - Var 26 / Num (2#1)) / (Site 0 * Site 0 * Site 0 * Site 0);
    Num (-6#1) * (Var 24 - Var 26 / Num (2#1)) / (Site 0 * Site 0 * Site 0 * Site 0) + Num (2#1) / (Site 0 * Site 0 * Site 0);
    Num (-6#1) * (Var 24 - Var 26 / Num (2#1)) / (Site 0 * Site 0 * Site 0 * Site 0);
    Num (-6#1) * (Var 24 - Var 26 / Num (2#1)) / (Site 0 * Site 0 * Site 0 * Site 0) - Num (1#1) / (Site 0 * Site 0 * Site 0)];
    [Num (-6#1) * (Var 24 - Var 26 / Num (2#1)) / (Site 0 * Site 0 * Site 0 * Site 0);
    Num (-6#1) * (Var 24 - Var 26 / Num (2#1)) / (Site 0 * Site 0 * Site 0 * Site 0);
    Num (-6#1) * (Var 24 - Var 26 / Num (2#1)) / (Site 0 * Site 0 * Site 0 * Site 0);
    Num (-6#1) * (Var 24 - Var 26 / Num (2#1)) / (Site 0 * Site 0 * Site 0 * Site 0);
    Num (-6#1) * (Var 24 - Var 26 / Num (2#1)) / (Site 0 * Site 0 * Site 0 * Site 0) + Num (2#1) / (Site 0 * Site 0 * Site 0);
    Num (-6#1) * (Var 24 - Var 26 / Num (2#1)) / (Site 0 * Site 0 * Site 0 * Site 0);
    Num (-6#1) * (Var 24 - Var 26 / Num (2#1)) / (Site 0 * Site 0 * Site 0 * Site 0) - Num (1#1) / (Site 0 * Site 0 * Site 0)];
    [Num (-6#1) * (Var 24 - Var 26 / Num (2#1)) / (Site 0 * Site 0 * Site 0 * Site 0);
    Num (-6#1) * (Var 24 - Var 26 / Num (2#1)) / (Site 0 * Site 0 * Site 0 * Site 0);
    Num (-6#1) * (Var 24 - Var 26 / Num (2#1)) / (Site 0 * Site 0 * Site 0 * Site 0);
    Num (-6#1) * (Var 24 - Var 26 / Num (2#1)) / (Site 0 * Site 0 * Site 0 * Site 0);
    Num (-6#1) * (Var 24 - Var 26 / Num (2#1)) / (Site 0 * Site 0 * Site 0 * Site 0) + Num (2#1) / (Site 0 * Site 0 * Site 0);
    Num (-6#1) * (Var 24 - Var 26 / Num (2#1)) / (Site 0 * Site 0 * Site 0 * Site 0);
    Num (-6#1) * (Var 24 - Var 26 / Num (2#1)) / (Site 0 * Site 0 * Site 0 * Site 0) - Num (1#1) / (Site 0 * Site 0 * Site 0)];
    [Num (-6#1) * (Var 24 - Var 26 / Num (2#1)) / (Site 0 * Site 0 * Site 0 * Site 0) + Num (2#1) / (Site 0 * Site 0 * Site 0);
    Num (-6#1) * (Var 24 - Var 26 / Num (2#1)) / (Site 0 * Site 0 * Site 0 * Site 0) + Num (2#1) / (Site 0 * Site 0 * Site 0);
    Num (-6#1) * (Var 24 - Var 26 / Num (2#1)) / (Site 0 * Site 0 * Site 0 * Site 0) + Num (2#1) / (Site 0 * Site 0 * Site 0);
    Num (-6#1) * (Var 24 - Var 26 / Num (2#1)) / (Site 0 * Site 0 * Site 0 * Site 0) + Num (2#1) / (Site 0 * Site 0 * Site 0);
    Num (-6#1) * (Var 24 - Var 26 / Num (2#1)) / (Site 0 * Site 0 * Site 0 * Site 0) + Num (2#1) / (Site 0 * Site 0 * Site 0) + Num (2#1) / (Site 0 * Site 0 * Site 0);
    Num (-6#1) * (Var 24 - Var 26 / Num (2#1)) / (Site 0 * Site 0 * Site 0 * Site 0) + Num (2#1) / (Site 0 * Site 0 * Site 0);
    Num (-6#1) * (Var 24 - Var 26 / Num (2#1)) / (Site 0 * Site 0 * Site 0 * Site 0) + Num (2#1) / (Site 0 * Site 0 * Site 0) - Num (1#1) / (Site 0 * Site 0 * Site 0)];
    [Num (-6#1) * (Var 24 - Var 26 / Num (2#1)) / (Site 0 * Site 0 * Site 0 * Site 0);
    Num (-6#1) * (Var 24 - Var 26 / Num (2#1)) / (Site 0 * Site 0 * Site 0 * Site 0);
    Num (-6#1) * (Var 24 - Var 26 / Num (2#1)) / (Site 0 * Site 0 * Site 0 * Site 0);
    Num (-6#1) * (Var 24 - Var 26 / Num (2#1)) / (Site 0 * Site 0 * Site 0 * Site 0);
    Num (-6#1) * (Var 24 - Var 26 / Num (2#1)) / (Site 0 * Site 0 * Site 0 * Site 0) + Num (2#1) / (Site 0 * Site 0 * Site 0);
    Num (-6#1) * (Var 24 - Var 26 / Num (2#1)) / (Site 0 * Site 0 * Site 0 * Site 0);
    Num (-6#1) * (Var 24 - Var 26 / Num (2#1)) / (Site 0 * Site 0 * Site 0 * Site 0) - Num (1#1) / (Site 0 * Site 0 * Site 0)];
    [Num (-6#1) * (Var 24 - Var 26 / Num (2#1)) / (Site 0 * Site 0 * Site 0 * Site 0) - Num (1#1) / (Site 0 * Site 0 * Site 0);
    Num (-6#1) * (Var 24 - Var 26 / Num (2#1)) / (Site 0 * Site 0 * Site 0 * Site 0) - Num (1#1) / (Site 0 * Site 0 * Site 0);
    Num (-6#1) * (Var 24 - Var 26 / Num (2#1)) / (Site 0 * Site 0 * Site 0 * Site 0) - Num (1#1) / (Site 0 * Site 0 * Site 0);
    Num (-6#1) * (Var 24 - Var 26 / Num (2#1)) / (Site 0 * Site 0 * Site 0 * Site 0) - Num (1#1) / (Site 0 * Site 0 * Site 0);
    Num (-6#1) * (Var 24 - Var 26 / Num (2#1)) / (Site 0 * Site 0 * Site 0 * Site 0) + Num (2#1) / (Site 0 * Site 0 * Site 0) - Num (1#1) / (Site 0 * Site 0 * Site 0);
    Num (-6#1) * (Var 24 - Var 26 / Num (2#1)) / (Site 0 * Site 0 * Site 0 * Site 0) - Num (1#1) / (Site 0 * Site 0 * Site 0);
    Num (-6#1) * (Var 24 - Var 26 / Num (2#1)) / (Site 0 * Site 0 * Site 0 * Site 0) - Num (1#1) / (Site 0 * Site 0 * Site 0) - Num (1#1) / (Site 0 * Site 0 * Site 0)]];
    [[Num (-6#1) * (Var 24 - Var 26 / Num (2#1)) / (Site 0 * Site 0 * Site 0 * Site 0) + Num (2#1) / (Site 0 * Site 0 * Site 0);
    Num (-6#1) * (Var 24 - Var 26 / Num (2#1)) / (Site 0 * Site 0 * Site 0 * Site 0) + Num (2#1) / (Site 0 * Site 0 * Site 0);
    Num (-6#1) * (Var 24 - Var 26 / Num (2#1)) / (Site 0 * Site 0 * Site 0 * Site 0) + Num (2#1) / (Site 0 * Site 0 * Site 0);
    Num (-6#1) * (Var 24 - Var 26 / Num (2#1)) / (Site 0 * Site 0 * Site 0 * Site 0) + Num (2#1) / (Site 0 * Site 0 * Site 0);
    Num (-6#1) * (Var 24 - Var 26 / Num (2#1)) / (Site 0 * Site 0 * Site 0 * Site 0) + Num (2#1) / (Site 0 * Site 0 * Site 0) + Num (2#1) / (Site 0 * Site 0 * Site 0);
    Num (-6#1) * (Var 24 - Var 26 / Num (2#1)) / (Site 0 * Site 0 * Site 0 * Site 0) + Num (2#1) / (Site 0 * Site 0 * Site 0);
    Num (-6#1) * (Var 24 - Var 26 / Num (2#1)) / (Site 0 * Site 0 * Site 0 * Site 0) + Num (2#1) / (Site 0 * Site 0 * Site 0) - Num (1#1) / (Site 0 * Site 0 * Site 0)];
    [Num (-6#1) * (Var 24 - Var 26 / Num (2#1)) / (Site 0 * Site 0 * Site 0 * Site 0) + Num (2#1) / (Site 0 * Site 0 * Site 0);
    Num (-6#1) * (Var 24 - Var 26 / Num (2#1)) / (Site 0 * Site 0 * Site 0 * Site 0) + Num (2#1) / (Site 0 * Site 0 * Site 0);
    Num (-6#1) * (Var 24 - Var 26 / Num (2#1)) / (Site 0 * Site 0 * Site 0 * Site 0) + Num (2#1) / (Site 0 * Site 0 * Site 0);
    Num (-6#1) * (Var 24 - Var 26 / Num (2#1)) / (Site 0 * Site 0 * Site 0 * Site 0) + Num (2#1) / (Site 0 * Site 0 * Site 0);
    Num (-6#1) * (Var 24 - Var 26 / Num (2#1)) / (Site 0 * Site 0 * Site 0 * Site 0) + Num (2#1) / (Site 0 * Site 0 * Site 0) + Num (2#1) / (Site 0 * Site 0 * Site 0);
    Num (-6#1) * (Var 24 - Var 26 / Num (2#1)) / (Site 0 * Site 0 * Site 0 * Site 0) + Num (2#1) / (Site 0 * Site 0 * Site 0);
    Num (-6#1) * (Var 24 - Var 26 / Num (2#1)) / (Site 0 * Site 0 * Site 0 * Site 0) + Num (2#1) / (Site 0 * Site 0 * Site 0) - Num (1#1) / (Site 0 * Site 0 * Site 0)];
    [Num (-6#1) * (Var 24 - Var 26 / Num (2#1)) / (Site 0 * Site 0 * Site 0 * Site 0) + Num (2#1) / (Site 0 * Site 0 * Site 0);
    Num (-6#1) * (Var 24 - Var 26 / Num (2#1)) / (Site 0 * Site 0 * Site 0 * Site 0) + Num (2#1) / (Site 0 * Site 0 * Site 0);
    Num (-6#1) * (Var 24 - Var 26 / Num (2#1)) / (Site 0 * Site 0 * Site 0 * Site 0) + Num (2#1) / (Site 0 * Site 0 * Site 0);
    Num (-6#1) * (Var 24 - Var 26 / Num (2#1)) / (Site 0 * Site 0 * Site 0 * Site 0) + Num (2#1) / (Site 0 * Site 0 * Site 0);
    Num (-6#1) * (Var 24 - Var 26 / Num (2#1)) / (Site 0 * Site 0 * Site 0 * Site 0) + Num (2#1) / (Site 0 * Site 0 * Site 0) + Num (2#1) / (Site 0 * Site 0 * Site 0);
    Num (-6#1) * (Var 24 - Var 26 / Num (2#1)) / (Site 0 * Site 0 * Site 0 * Site 0) + Num (2#1) / (Site 0 * Site 0 * Site 0);
    Num (-6#1) * (Var 24 - Var 26 / Num (2#1)) / (Site 0 * Site 0 * Site 0 * Site 0) + Num (2#1) / (Site 0 * Site 0 * Site 0) - Num (1#1) / (Site 0 * Site 0 * Site 0)];
    [Num (-6#1) * (Var 24 - Var 26 / Num (2#1)) / (Site 0 * Site 0 * Site 0 * Site 0) + Num (2#1) / (Site 0 * Site 0 * Site 0);
    Num (-6#1) * (Var 24 - Var 26 / Num (2#1)) / (Site 0 * Site 0 * Site 0 * Site 0) + Num (2#1) / (Site 0 * Site 0 * Site 0);
    Num (-6#1) * (Var 24 - Var 26 / Num (2#1)) / (Site 0 * Site 0 * Site 0 * Site 0) + Num (2#1) / (Site 0 * Site 0 * Site 0);
    Num (-6#1) * (Var 24 - Var 26 / Num (2#1)) / (Site 0 * Site 0 * Site 0 * Site 0) + Num (2#1) / (Site 0 * Site 0 * Site 0);
    Num (-6#1) * (Var 24 - Var 26 / Num (2#1)) / (Site 0 * Site 0 * Site 0 * Site 0) + Num (2#1) / (Site 0 * Site 0 * Site 0) + Num (2#1) / (Site 0 * Site 0 * Site 0);
    Num (-6#1) * (Var 24 - Var 26 / Num (2#1)) / (Site 0 * Site 0 * Site 0 * Site 0) + Num (2#1) / (Site 0 * Site 0 * Site 0);
    Num (-6#1) * (Var 24 - Var 26 / Num (2#1)) / (Site 0 * Site 0 * Site 0 * Site 0) + Num (2#1) / (Site 0 * Site 0 * Site 0) - Num (1#1) / (Site 0 * Site 0 * Site 0)];
    [Num (-6#1) * (Var 24 - Var 26 / Num (2#1)) / (Site 0 * Site 0 * Site 0 * Site 0) + Num (2#1) / (Site 0 * Site 0 * Site 0) + Num (2#1) / (Site 0 * Site 0 * Site 0);
    Num (-6#1) * (Var 24 - Var 26 / Num (2#1)) / (Site 0 * Site 0 * Site 0 * Site 0) + Num (2#1) / (Site 0 * Site 0 * Site 0) + Num (2#1) / (Site 0 * Site 0 * Site 0);
    Num (-6#1) * (Var 24 - Var 26 / Num (2#1)) / (Site 0 * Site 0 * Site 0 * Site 0) + Num (2#1) / (Site 0 * Site 0 * Site 0) + Num (2#1) / (Site 0 * Site 0 * Site 0);
    Num (-6#1) * (Var 24 - Var 26 / Num (2#1)) / (Site 0 * Site 0 * Site 0 * Site 0) + Num (2#1) / (Site 0 * Site 0 * Site 0) + Num (2#1) / (Site 0 * Site 0 * Site 0);
    Num (-6#1) * (Var 24 - Var 26 / Num (2#1)) / (Site 0 * Site 0 * Site 0 * Site 0) + Num (2#1) / (Site 0 * Site 0 * Site 0) + Num (2#1) / (Site 0 * Site 0 * Site 0) + Num (2#1) / (Site 0 * Site 0 * Site 0);
    Num (-6#1) * (Var 24 - Var 26 / Num (2#1)) / (Site 0 * Site 0 * Site 0 * Site 0) + Num (2#1) / (Site 0 * Site 0 * Site 0) + Num (2#1) / (Site 0 * Site 0 * Site 0);
    Num (-6#1) * (Var 24 - Var 26 / Num (2#1)) / (Site 0 * Site 0 * Site 0 * Site 0) + Num (2#1) / (Site 0 * Site 0 * Site 0) + Num (2#1) / (Site 0 * Site 0 * Site 0) - Num (1#1) / (Site 0 * Site 0 * Site 0)];
    [Num (-6#1) * (Var 24 - Var 26 / Num (2#1)) / (Site 0 * Site 0 * Site 0 * Site 0) + Num (2#1) / (Site 0 * Site 0 * Site 0);
    Num (-6#1) * (Var 24 - Var 26 / Num (2#1)) / (Site 0 * Site 0 * Site 0 * Site 0) + Num (2#1) / (Site 0 * Site 0 * Site 0);
    Num (-6#1) * (Var 24 - Var 26 / Num (2#1)) / (Site 0 * Site 0 * Site 0 * Site 0) + Num (2#1) / (Site 0 * Site 0 * Site 0);
    Num (-6#1) * (Var 24 - Var 26 / Num (2#1)) / (Site 0 * Site 0 * Site 0 * Site 0) + Num (2#1) / (Site 0 * Site 0 * Site 0);
    Num (-6#1) * (Var 24 - Var 26 / Num (2#1)) / (Site 0 * Site 0 * Site 0 * Site 0) + Num (2#1) / (Site 0 * Site 0 * Site 0) + Num (2#1) / (Site 0 * Site 0 * Site 0);
    Num (-6#1) * (Var 24 - Var 26 / Num (2#1)) / (Site 0 * Site 0 * Site 0 * Site 0) + Num (2#1) / (Site 0 * Site 0 * Site 0);
    Num (-6#1) * (Var 24 - Var 26 / Num (2#1)) / (Site 0 * Site 0 * Site 0 * Site 0) + Num (2#1) / (Site 0 * Site 0 * Site 0) - Num (1#1) / (Site 0 * Site 0 * Site 0)];
    [Num (-6#1) * (Var 24 - Var 26 / Num (2#1)) / (Site 0 * Site 0 * Site 0 * Site 0) + Num (2#1) / (Site 0 * Site 0 * Site 0) - Num (1#1) / (Site 0 * Site 0 * Site 0);
    Num (-6#1) * (Var 24 - Var 26 / Num (2#1)) / (Site 0 * Site 0 * Site 0 * Site 0) + Num (2#1) / (Site 0 * Site 0 * Site 0) - Num (1#1) / (Site 0 * Site 0 * Site 0);
    Num (-6#1) * (Var 24 - Var 26 / Num (2#1)) / (Site 0 * Site 0 * Site 0 * Site 0) + Num (2#1) / (Site 0 * Site 0 * Site 0) - Num (1#1) / (Site 0 * Site 0 * Site 0);
    Num (-6#1) * (Var 24 - Var 26 / Num (2#1)) / (Site 0 * Site 0 * Site 0 * Site 0) + Num (2#1) / (Site 0 * Site 0 * Site 0) - Num (1#1) / (Site 0 * Site 0 * Site 0);
    Num (-6#1) * (Var 24 - Var 26 / Num (2#1)) / (Site 0 * Site 0 * Site 0 * Site 0) + Num (2#1) / (Site 0 * Site 0 * Site 0) + Num (2#1) / (Site 0 * Site 0 * Site 0) - Num (1#1) / (Site 0 * Site 0 * Site 0);
    Num (-6#1) * (Var 24 - Var 26 / Num (2#1)) / (Site 0 * Site 0 * Site 0 * Site 0) + Num (2#1) / (Site 0 * Site 0 * Site 0) - Num (1#1) / (Site 0 * Site 0 * Site 0);
    Num (-6#1) * (Var 24 - Var 26 / Num (2#1)) / (Site 0 * Site 0 * Site 0 * Site 0) + Num (2#1) / (Site 0 * Site 0 * Site 0) - Num (1#1) / (Site 0 * Site 0 * Site 0) - Num (1#1) / (Site 0 * Site 0 * Site 0)]];
    [[Num (-6#1) * (Var 24 - Var 26 / Num (2#1)) / (Site 0 * Site 0 * Site 0 * Site 0);
    Num (-6#1) * (Var 24 - Var 26 / Num (2#1)) / (Site 0 * Site 0 * Site 0 * Site 0);
    Num (-6#1) * (Var 24 - Var 26 / Num (2#1)) / (Site 0 * Site 0 * Site 0 * Site 0);
    Num (-6#1) * (Var 24 - Var 26 / Num (2#1)) / (Site 0 * Site 0 * Site 0 * Site 0);
    Num (-6#1) * (Var 24 - Var 26 / Num (2#1)) / (Site 0 * Site 0 * Site 0 * Site 0) + Num (2#1) / (Site 0 * Site 0 * Site 0);
    Num (-6#1) * (Var 24 - Var 26 / Num (2#1)) / (Site 0 * Site 0 * Site 0 * Site 0);
    Num (-6#1) * (Var 24 - Var 26 / Num (2#1)) / (Site 0 * Site 0 * Site 0 * Site 0) - Num (1#1) / (Site 0 * Site 0 * Site 0)];
    [Num (-6#1) * (Var 24 - Var 26 / Num (2#1)) / (Site 0 * Site 0 * Site 0 * Site 0);
    Num (-6#1) * (Var 24 - Var 26 / Num (2#1)) / (Site 0 * Site 0 * Site 0 * Site 0);
    Num (-6#1) * (Var 24 - Var 26 / Num (2#1)) / (Site 0 * Site 0 * Site 0 * Site 0);
    Num (-6#1) * (Var 24 - Var 26 / Num (2#1)) / (Site 0 * Site 0 * Site 0 * Site 0);
    Num (-6#1) * (Var 24 - Var 26 / Num (2#1)) / (Site 0 * Site 0 * Site 0 * Site 0) + Num (2#1) / (Site 0 * Site 0 * Site 0);
    Num (-6#1) * (Var 24 - Var 26 / Num (2#1)) / (Site 0 * Site 0 * Site 0 * Site 0);
    Num (-6#1) * (Var 24 - Var 26 / Num (2#1)) / (Site 0 * Site 0 * Site 0 * Site 0) - Num (1#1) / (Site 0 * Site 0 * Site 0)];
    [Num (-6#1) * (Var 24 - Var 26 / Num (2#1)) / (Site 0 * Site 0 * Site 0 * Site 0);
    Num (-6#1) * (Var 24 - Var 26 / Num (2#1)) / (Site 0 * Site 0 * Site 0 * Site 0);
    Num (-6#1) * (Var 24 - Var 26 / Num (2#1)) / (Site 0 * Site 0 * Site 0 * Site 0);
    Num (-6#1) * (Var 24 - Var 26 / Num (2#1)) / (Site 0 * Site 0 * Site 0 * Site 0);
    Num (-6#1) * (Var 24 - Var 26 / Num (2#1)) / (Site 0 * Site 0 * Site 0 * Site 0) + Num (2#1) / (Site 0 * Site 0 * Site 0);
    Num (-6#1) * (Var 24 - Var 26 / Num (2#1)) / (Site 0 * Site 0 * Site 0 * Site 0);
    Num (-6#1) * (Var 24 - Var 26 / Num (2#1)) / (Site 0 * Site 0 * Site 0 * Site 0) - Num (1#1) / (Site 0 * Site 0 * Site 0)];
    [Num (-6#1) * (Var 24 - Var 26 / Num (2#1)) / (Site 0 * Site 0 * Site 0 * Site 0);
    Num (-6#1) * (Var 24 - Var 26 / Num (2#1)) / (Site 0 * Site 0 * Site 0 * Site 0);
    Num (-6#1) * (Var 24 - Var 26 / Num (2#1)) / (Site 0 * Site 0 * Site 0 * Site 0);
    Num (-6#1) * (Var 24 - Var 26 / Num (2#1)) / (Site 0 * Site 0 * Site 0 * Site 0);
    Num (-6#1) * (Var 24 - Var 26 / Num (2#1)) / (Site 0 * Site 0 * Site 0 * Site 0) + Num (2#1) / (Site 0 * Site 0 * Site 0);
    Num (-6#1) * (Var 24 - Var 26 / Num (2#1)) / (Site 0 * Site 0 * Site 0 * Site 0);
    Num (-6#1) * (Var 24 - Var 26 / Num (2#1)) / (Site 0 * Site 0 * Site 0 * Site 0) - Num (1#1) / (Site 0 * Site 0 * Site 0)];
    [Num (-6#1) * (Var 24 - Var 26 / Num (2#1)) / (Site 0 * Site 0 * Site 0 * Site 0) + Num (2#1) / (Site 0 * Site 0 * Site 0);
    Num (-6#1) * (Var 24 - Var 26 / Num (2#1)) / (Site 0 * Site 0 * Site 0 * Site 0) + Num (2#1) / (Site 0 * Site 0 * Site 0);
    Num (-6#1) * (Var 24 - Var 26 / Num (2#1)) / (Site 0 * Site 0 * Site 0 * Site 0) + Num (2#1) / (Site 0 * Site 0 * Site 0);
    Num (-6#1) * (Var 24 - Var 26 / Num (2#1)) / (Site 0 * Site 0 * Site 0 * Site 0) + Num (2#1) / (Site 0 * Site 0 * Site 0);
    Num (-6#1) * (Var 24 - Var 26 / Num (2#1)) / (Site 0 * Site 0 * Site 0 * Site 0) + Num (2#1) / (Site 0 * Site 0 * Site 0) + Num (2#1) / (Site 0 * Site 0 * Site 0);
    Num (-6#1) * (Var 24 - Var 26 / Num (2#1)) / (Site 0 * Site 0 * Site 0 * Site 0) + Num (2#1) / (Site 0 * Site 0 * Site 0);
    Num (-6#1) * (Var 24 - Var 26 / Num (2#1)) / (Site 0 * Site 0 * Site 0 * Site 0) + Num (2#1) / (Site 0 * Site 0 * Site 0) - Num (1#1) / (Site 0 * Site 0 * Site 0)];
    [Num (-6#1) * (Var 24 - Var 26 / Num (2#1)) / (Site 0 * Site 0 * Site 0 * Site 0);
    Num (-6#1) * (Var 24 - Var 26 / Num (2#1)) / (Site 0 * Site 0 * Site 0 * Site 0);
    Num (-6#1) * (Var 24 - Var 26 / Num (2#1)) / (Site 0 * Site 0 * Site 0 * Site 0);
    Num (-6#1) * (Var 24 - Var 26 / Num (2#1)) / (Site 0 * Site 0 * Site 0 * Site 0);
    Num (-6#1) * (Var 24 - Var 26 / Num (2#1)) / (Site 0 * Site 0 * Site 0 * Site 0) + Num (2#1) / (Site 0 * Site 0 * Site 0);
    Num (-6#1) * (Var 24 - Var 26 / Num (2#1)) / (Site 0 * Site 0 * Site 0 * Site 0);
    Num (-6#1) * (Var 24 - Var 26 / Num (2#1)) / (Site 0 * Site 0 * Site 0 * Site 0) - Num (1#1) / (Site 0 * Site 0 * Site 0)];
    [Num (-6#1) * (Var 24 - Var 26 / Num (2#1)) / (Site 0 * Site 0 * Site 0 * Site 0) - Num (1#1) / (Site 0 * Site 0 * Site 0);
    Num (-6#1) * (Var 24 - Var 26 / Num (2#1)) / (Site 0 * Site 0 * Site 0 * Site 0) - Num (1#1) / (Site 0 * Site 0 * Site 0);
    Num (-6#1) * (Var 24 - Var 26 / Num (2#1)) / (Site 0 * Site 0 * Site 0 * Site 0) - Num (1#1) / (Site 0 * Site 0 * Site 0);
    Num (-6#1) * (Var 24 - Var 26 / Num (2#1)) / (Site 0 * Site 0 * Site 0 * Site 0) - Num (1#1) / (Site 0 * Site 0 * Site 0);
    Num (-6#1) * (Var 24 - Var 26 / Num (2#1)) / (Site 0 * Site 0 * Site 0 * Site 0) + Num (2#1) / (Site 0 * Site 0 * Site 0) - Num (1#1) / (Site 0 * Site 0 * Site 0);
    Num (-6#1) * (Var 24 - Var 26 / Num (2#1)) / (Site 0 * Site 0 * Site 0 * Site 0) - Num (1#1) / (Site 0 * Site 0 * Site 0);
    Num (-6#1) * (Var 24 - Var 26 / Num (2#1)) / (Site 0 * Site 0 * Site 0 * Site 0) - Num (1#1) / (Site 0 * Site 0 * Site 0) - Num (1#1) / (Site 0 * Site 0 * Site 0)]];
    [[Num (-6#1) * (Var 24 - Var 26 / Num (2#1)) / (Site 0 * Site 0 * Site 0 * Site 0) - Num (1#1) / (Site 0 * Site 0 * Site 0);
    Num (-6#1) * (Var 24 - Var 26 / Num (2#1)) / (Site 0 * Site 0 * Site 0 * Site 0) - Num (1#1) / (Site 0 * Site 0 * Site 0);
    Num (-6#1) * (Var 24 - Var 26 / Num (2#1)) / (Site 0 * Site 0 * Site 0 * Site 0) - Num (1#1) / (Site 0 * Site 0 * Site 0);
    Num (-6#1) * (Var 24 - Var 26 / Num (2#1)) / (Site 0 * Site 0 * Site 0 * Site 0) - Num (1#1) / (Site 0 * Site 0 * Site 0);
    Num (-6#1) * (Var 24 - Var 26 / Num (2#1)) / (Site 0 * Site 0 * Site 0 * Site 0) + Num (2#1) / (Site 0 * Site 0 * Site 0) - Num (1#1) / (Site 0 * Site 0 * Site 0);
    Num (-6#1) * (Var 24 - Var 26 / Num (2#1)) / (Site 0 * Site 0 * Site 0 * Site 0) - Num (1#1) / (Site 0 * Site 0 * Site 0);
    Num (-6#1) * (Var 24 - Var 26 / Num (2#1)) / (Site 0 * Site 0 * Site 0 * Site 0) - Num (1#1) / (Site 0 * Site 0 * Site 0) - Num (1#1) / (Site 0 * Site 0 * Site 0)];
    [Num (-6#1) * (Var 24 - Var 26 / Num (2#1)) / (Site 0 * Site 0 * Site 0 * Site 0) - Num (1#1) / (Site 0 * Site 0 * Site 0);
    Num (-6#1) * (Var 24 - Var 26 / Num (2#1)) / (Site 0 * Site 0 * Site 0 * Site 0) - Num (1#1) / (Site 0 * Site 0 * Site 0);
    Num (-6#1) * (Var 24 - Var 26 / Num (2#1)) / (Site 0 * Site 0 * Site 0 * Site 0) - Num (1#1) / (Site 0 * Site 0 * Site 0);
    Num (-6#1) * (Var 24 - Var 26 / Num (2#1)) / (Site 0 * Site 0 * Site 0 * Site 0) - Num (1#1) / (Site 0 * Site 0 * Site 0);
    Num (-6#1) * (Var 24 - Var 26 / Num (2#1)) / (Site 0 * Site 0 * Site 0 * Site 0) + Num (2#1) / (Site 0 * Site 0 * Site 0) - Num (1#1) / (Site 0 * Site 0 * Site 0);
    Num (-6#1) * (Var 24 - Var 26 / Num (2#1)) / (Site 0 * Site 0 * Site 0 * Site 0) - Num (1#1) / (Site 0 * Site 0 * Site 0);
    Num (-6#1) * (Var 24 - Var 26 / Num (2#1)) / (Site 0 * Site 0 * Site 0 * Site 0) - Num (1#1) / (Site 0 * Site 0 * Site 0) - Num (1#1) / (Site 0 * Site 0 * Site 0)];
    [Num (-6#1) * (Var 24 - Var 26 / Num (2#1)) / (Site 0 * Site 0 * Site 0 * Site 0) - Num (1#1) / (Site 0 * Site 0 * Site 0);
    Num (-6#1) * (Var 24 - Var 26 / Num (2#1)) / (Site 0 * Site 0 * Site 0 * Site 0) - Num (1#1) / (Site 0 * Site 0 * Site 0);
    Num (-6#1) * (Var 24 - Var 26 / Num (2#1)) / (Site 0 * Site 0 * Site 0 * Site 0) - Num (1#1) / (Site 0 * Site 0 * Site 0);
    Num (-6#1) * (Var 24 - Var 26 / Num (2#1)) / (Site 0 * Site 0 * Site 0 * Site 0) - Num (1#1) / (Site 0 * Site 0 * Site 0);
    Num (-6#1) * (Var 24 - Var 26 / Num (2#1)) / (Site 0 * Site 0 * Site 0 * Site 0) + Num (2#1) / (Site 0 * Site 0 * Site 0) - Num (1#1) / (Site 0 * Site 0 * Site 0);
    Num (-6#1) * (Var 24 - Var 26 / Num (2#1)) / (Site 0 * Site 0 * Site 0 * Site 0) - Num (1#1) / (Site 0 * Site 0 * Site 0);
    Num (-6#1) * (Var 24 - Var 26 / Num (2#1)) / (Site 0 * Site 0 * Site 0 * Site 0) - Num (1#1) / (Site 0 * Site 0 * Site 0) - Num (1#1) / (Site 0 * Site 0 * Site 0)];
    [Num (-6#1) * (Var 24 - Var 26 / Num (2#1)) / (Site 0 * Site 0 * Site 0 * Site 0) - Num (1#1) / (Site 0 * Site 0 * Site 0);
    Num (-6#1) * (Var 24 - Var 26 / Num (2#1)) / (Site 0 * Site 0 * Site 0 * Site 0) - Num (1#1) / (Site 0 * Site 0 * Site 0);
    Num (-6#1) * (Var 24 - Var 26 / Num (2#1)) / (Site 0 * Site 0 * Site 0 * Site 0) - Num (1#1) / (Site 0 * Site 0 * Site 0);
    Num (-6#1) * (Var 24 - Var 26 / Num (2#1)) / (Site 0 * Site 0 * Site 0 * Site 0) - Num (1#1) / (Site 0 * Site 0 * Site 0);
    Num (-6#1) * (Var 24 - Var 26 / Num (2#1)) / (Site 0 * Site 0 * Site 0 * Site 0) + Num (2#1) / (Site 0 * Site 0 * Site 0) - Num (1#1) / (Site 0 * Site 0 * Site 0);
    Num (-6#1) * (Var 24 - Var 26 / Num (2#1)) / (Site 0 * Site 0 * Site 0 * Site 0) - Num (1#1) / (Site 0 * Site 0 * Site 0);
    Num (-6#1) * (Var 24 - Var 26 / Num (2#1)) / (Site 0 * Site 0 * Site 0 * Site 0) - Num (1#1) / (Site 0 * Site 0 * Site 0) - Num (1#1) / (Site 0 * Site 0 * Site 0)];
    [Num (-6#1) * (Var 24 - Var 26 / Num (2#1)) / (Site 0 * Site 0 * Site 0 * Site 0) + Num (2#1) / (Site 0 * Site 0 * Site 0) - Num (1#1) / (Site 0 * Site 0 * Site 0);
    Num (-6#1) * (Var 24 - Var 26 / Num (2#1)) / (Site 0 * Site 0 * Site 0 * Site 0) + Num (2#1) / (Site 0 * Site 0 * Site 0) - Num (1#1) / (Site 0 * Site 0 * Site 0);
    Num (-6#1) * (Var 24 - Var 26 / Num (2#1)) / (Site 0 * Site 0 * Site 0 * Site 0) + Num (2#1) / (Site 0 * Site 0 * Site 0) - Num (1#1) / (Site 0 * Site 0 * Site 0);
    Num (-6#1) * (Var 24 - Var 26 / Num (2#1)) / (Site 0 * Site 0 * Site 0 * Site 0) + Num (2#1) / (Site 0 * Site 0 * Site 0) - Num (1#1) / (Site 0 * Site 0 * Site 0);
    Num (-6#1) * (Var 24 - Var 26 / Num (2#1)) / (Site 0 * Site 0 * Site 0 * Site 0) + Num (2#1) / (Site 0 * Site 0 * Site 0) + Num (2#1) / (Site 0 * Site 0 * Site 0) - Num (1#1) / (Site 0 * Site 0 * Site 0);
    Num (-6#1) * (Var 24 - Var 26 / Num (2#1)) / (Site 0 * Site 0 * Site 0 * Site 0) + Num (2#1) / (Site 0 * Site 0 * Site 0) - Num (1#1) / (Site 0 * Site 0 * Site 0);
    Num (-6#1) * (Var 24 - Var 26 / Num (2#1)) / (Site 0 * Site 0 * Site 0 * Site 0) + Num (2#1) / (Site 0 * Site 0 * Site 0) - Num (1#1) / (Site 0 * Site 0 * Site 0) - Num (1#1) / (Site 0 * Site 0 * Site 0)];
    [Num (-6#1) * (Var 24 - Var 26 / Num (2#1)) / (Site 0 * Site 0 * Site 0 * Site 0) - Num (1#1) / (Site 0 * Site 0 * Site 0);
    Num (-6#1) * (Var 24 - Var 26 / Num (2#1)) / (Site 0 * Site 0 * Site 0 * Site 0) - Num (1#1) / (Site 0 * Site 0 * Site 0);
    Num (-6#1) * (Var 24 - Var 26 / Num (2#1)) / (Site 0 * Site 0 * Site 0 * Site 0) - Num (1#1) / (Site 0 * Site 0 * Site 0);
    Num (-6#1) * (Var 24 - Var 26 / Num (2#1)) / (Site 0 * Site 0 * Site 0 * Site 0) - Num (1#1) / (Site 0 * Site 0 * Site 0);
    Num (-6#1) * (Var 24 - Var 26 / Num (2#1)) / (Site 0 * Site 0 * Site 0 * Site 0) + Num (2#1) / (Site 0 * Site 0 * Site 0) - Num (1#1) / (Site 0 * Site 0 * Site 0);
    Num (-6#1) * (Var 24 - Var 26 / Num (2#1)) / (Site 0 * Site 0 * Site 0 * Site 0) - Num (1#1) / (Site 0 * Site 0 * Site 0);
    Num (-6#1) * (Var 24 - Var 26 / Num (2#1)) / (Site 0 * Site 0 * Site 0 * Site 0) - Num (1#1) / (Site 0 * Site 0 * Site 0) - Num (1#1) / (Site 0 * Site 0 * Site 0)];
    [Num (-6#1) * (Var 24 - Var 26 / Num (2#1)) / (Site 0 * Site 0 * Site 0 * Site 0) - Num (1#1) / (Site 0 * Site 0 * Site 0) - Num (1#1) / (Site 0 * Site 0 * Site 0);
    Num (-6#1) * (Var 24 - Var 26 / Num (2#1)) / (Site 0 * Site 0 * Site 0 * Site 0) - Num (1#1) / (Site 0 * Site 0 * Site 0) - Num (1#1) / (Site 0 * Site 0 * Site 0);
    Num (-6#1) * (Var 24 - Var 26 / Num (2#1)) / (Site 0 * Site 0 * Site 0 * Site 0) - Num (1#1) / (Site 0 * Site 0 * Site 0) - Num (1#1) / (Site 0 * Site 0 * Site 0);
    Num (-6#1) * (Var 24 - Var 26 / Num (2#1)) / (Site 0 * Site 0 * Site 0 * Site 0) - Num (1#1) / (Site 0 * Site 0 * Site 0) - Num (1#1) / (Site 0 * Site 0 * Site 0);
    Num (-6#1) * (Var 24 - Var 26 / Num (2#1)) / (Site 0 * Site 0 * Site 0 * Site 0) + Num (2#1) / (Site 0 * Site 0 * Site 0) - Num (1#1) / (Site 0 * Site 0 * Site 0) - Num (1#1) / (Site 0 * Site 0 * Site 0);
    Num (-6#1) * (Var 24 - Var 26 / Num (2#1)) / (Site 0 * Site 0 * Site 0 * Site 0) - Num (1#1) / (Site 0 * Site 0 * Site 0) - Num (1#1) / (Site 0 * Site 0 * Site 0);
    Num (-6#1) * (Var 24 - Var 26 / Num (2#1)) / (Site 0 * Site 0 * Site 0 * Site 0) - Num (1#1) / (Site 0 * Site 0 * Site 0) - Num (1#1) / (Site 0 * Site 0 * Site 0) - Num (1#1) / (Site 0 * Site 0 * Site 0)]]];
    [[[Num (-6#1) * (Var 25 + Var 26 / Num (2#1)) / (Site 0 * Site 0 * Site 0 * Site 0);
    Num (-6#1) * (Var 25 + Var 26 / Num (2#1)) / (Site 0 * Site 0 * Site 0 * Site 0);
    Num (-6#1) * (Var 25 + Var 26 / Num (2#1)) / (Site 0 * Site 0 * Site 0 * Site 0);
    Num (-6#1) * (Var 25 + Var 26 / Num (2#1)) / (Site 0 * Site 0 * Site 0 * Site 0);
    Num (-6#1) * (Var 25 + Var 26 / Num (2#1)) / (Site 0 * Site 0 * Site 0 * Site 0);
    Num (-6#1) * (Var 25 + Var 26 / Num (2#1)) / (Site 0 * Site 0 * Site 0 * Site 0) + Num (2#1) / (Site 0 * Site 0 * Site 0);
    Num (-6#1) * (Var 25 + Var 26 / Num (2#1)) / (Site 0 * Site 0 * Site 0 * Site 0) + Num (1#1) / (Site 0 * Site 0 * Site 0)];
    [Num (-6#1) * (Var 25 + Var 26 / Num (2#1)) / (Site 0 * Site 0 * Site 0 * Site 0);
    Num (-6#1) * (Var 25 + Var 26 / Num (2#1)) / (Site 0 * Site 0 * Site 0 * Site 0);
    Num (-6#1) * (Var 25 + Var 26 / Num (2#1)) / (Site 0 * Site 0 * Site 0 * Site 0);
    Num (-6#1) * (Var 25 + Var 26 / Num (2#1)) / (Site 0 * Site 0 * Site 0 * Site 0);
    Num (-6#1) * (Var 25 + Var 26 / Num (2#1)) / (Site 0 * Site 0 * Site 0 * Site 0);
    Num (-6#1) * (Var 25 + Var 26 / Num (2#1)) / (Site 0 * Site 0 * Site 0 * Site 0) + Num (2#1) / (Site 0 * Site 0 * Site 0);
    Num (-6#1) * (Var 25 + Var 26 / Num (2#1)) / (Site 0 * Site 0 * Site 0 * Site 0) + Num (1#1) / (Site 0 * Site 0 * Site 0)];
    [Num (-6#1) * (Var 25 + Var 26 / Num (2#1)) / (Site 0 * Site 0 * Site 0 * Site 0);
    Num (-6#1) * (Var 25 + Var 26 / Num (2#1)) / (Site 0 * Site 0 * Site 0 * Site 0);
    Num (-6#1) * (Var 25 + Var 26 / Num (2#1)) / (Site 0 * Site 0 * Site 0 * Site 0);
    Num (-6#1) * (Var 25 + Var 26 / Num (2#1)) / (Site 0 * Site 0 * Site 0 * Site 0);
    Num (-6#1) * (Var 25 + Var 26 / Num (2#1)) / (Site 0 * Site 0 * Site 0 * Site 0);
    Num (-6#1) * (Var 25 + Var 26 / Num (2#1)) / (Site 0 * Site 0 * Site 0 * Site 0) + Num (2#1) / (Site 0 * Site 0 * Site 0);
    Num (-6#1) * (Var 25 + Var 26 / Num (2#1)) / (Site 0 * Site 0 * Site 0 * Site 0) + Num (1#1) / (Site 0 * Site 0 * Site 0)];
    [Num (-6#1) * (Var 25 + Var 26 / Num (2#1)) / (Site 0 * Site 0 * Site 0 * Site 0);
    Num (-6#1) * (Var 25 + Var 26 / Num (2#1)) / (Site 0 * Site 0 * Site 0 * Site 0);
    Num (-6#1) * (Var 25 + Var 26 / Num (2#1)) / (Site 0 * Site 0 * Site 0 * Site 0);
    Num (-6#1) * (Var 25 + Var 26 / Num (2#1)) / (Site 0 * Site 0 * Site 0 * Site 0);
    Num (-6#1) * (Var 25 + Var 26 / Num (2#1)) / (Site 0 * Site 0 * Site 0 * Site 0);
    Num (-6#1) * (Var 25 + Var 26 / Num (2#1)) / (Site 0 * Site 0 * Site 0 * Site 0) + Num (2#1) / (Site 0 * Site 0 * Site 0);
    Num (-6#1) * (Var 25 + Var 26 / Num (2#1)) / (Site 0 * Site 0 * Site 0 * Site 0) + Num (1#1) / (Site 0 * Site 0 * Site 0)];
    [Num (-6#1) * (Var 25 + Var 26 / Num (2#1)) / (Site 0 * Site 0 * Site 0 * Site 0);
    Num (-6#1) * (Var 25 + Var 26 / Num (2#1)) / (Site 0 * Site 0 * Site 0 * Site 0);
    Num (-6#1) * (Var 25 + Var 26 / Num (2#1)) / (Site 0 * Site 0 * Site 0 * Site 0);
    Num (-6#1) * (Var 25 + Var 26 / Num (2#1)) / (Site 0 * Site 0 * Site 0 * Site 0);
    Num (-6#1) * (Var 25 + Var 26 / Num (2#1)) / (Site 0 * Site 0 * Site 0 * Site 0);
    Num (-6#1) * (Var 25 + Var 26 / Num (2#1)) / (Site 0 * Site 0 * Site 0 * Site 0) + Num (2#1) / (Site 0 * Site 0 * Site 0);
    Num (-6#1) * (Var 25 + Var 26 / Num (2#1)) / (Site 0 * Site 0 * Site 0 * Site 0) + Num (1#1) / (Site 0 * Site 0 * Site 0)];
    [Num (-6#1) * (Var 25 + Var 26 / Num (2#1)) / (Site 0 * Site 0 * Site 0 * Site 0) + Num (2#1) / (Site 0 * Site 0 * Site 0);
    Num (-6#1) * (Var 25 + Var 26 / Num (2#1)) / (Site 0 * Site 0 * Site 0 * Site 0) + Num (2#1) / (Site 0 * Site 0 * Site 0);
    Num (-6#1) * (Var 25 + Var 26 / Num (2#1)) / (Site 0 * Site 0 * Site 0 * Site 0) + Num (2#1) / (Site 0 * Site 0 * Site 0);
    Num (-6#1) * (Var 25 + Var 26 / Num (2#1)) / (Site 0 * Site 0 * Site 0 * Site 0) + Num (2#1) / (Site 0 * Site 0 * Site 0);
    Num (-6#1) * (Var 25 + Var 26 / Num (2#1)) / (Site 0 * Site 0 * Site 0 * Site 0) + Num (2#1) / (Site 0 * Site 0 * Site 0);
    Num (-6#1) * (Var 25 + Var 26 / Num (2#1)) / (Site 0 * Site 0 * Site 0 * Site 0) + Num (2#1) / (Site 0 * Site 0 * Site 0) + Num (2#1) / (Site 0 * Site 0 * Site 0);
    Num (-6#1) * (Var 25 + Var 26 / Num (2#1)) / (Site 0 * Site 0 * Site 0 * Site 0) + Num (2#1) / (Site 0 * Site 0 * Site 0) + Num (1#1) / (Site 0 * Site 0 * Site 0)];
    [Num (-6#1) * (Var 25 + Var 26 / Num (2#1)) / (Site 0 * Site 0 * Site 0 * Site 0) + Num (1#1) / (Site 0 * Site 0 * Site 0);
    Num (-6#1) * (Var 25 + Var 26 / Num (2#1)) / (Site 0 * Site 0 * Site 0 * Site 0) + Num (1#1) / (Site 0 * Site 0 * Site 0);
    Num (-6#1) * (Var 25 + Var 26 / Num (2#1)) / (Site 0 * Site 0 * Site 0 * Site 0) + Num (1#1) / (Site 0 * Site 0 * Site 0);
    Num (-6#1) * (Var 25 + Var 26 / Num (2#1)) / (Site 0 * Site 0 * Site 0 * Site 0) + Num (1#1) / (Site 0 * Site 0 * Site 0);
    Num (-6#1) * (Var 25 + Var 26 / Num (2#1)) / (Site 0 * Site 0 * Site 0 * Site 0) + Num (1#1) / (Site 0 * Site 0 * Site 0);
    Num (-6#1) * (Var 25 + Var 26 / Num (2#1)) / (Site 0 * Site 0 * Site 0 * Site 0) + Num (2#1) / (Site 0 * Site 0 * Site 0) + Num (1#1) / (Site 0 * Site 0 * Site 0);
    Num (-6#1) * (Var 25 + Var 26 / Num (2#1)) / (Site 0 * Site 0 * Site 0 * Site 0) + Num (1#1) / (Site 0 * Site 0 * Site 0) + Num (1#1) / (Site 0 * Site 0 * Site 0)]];
    [[Num (-6#1) * (Var 25 + Var 26 / Num (2#1)) / (Site 0 * Site 0 * Site 0 * Site 0);
    Num (-6#1) * (Var 25 + Var 26 / Num (2#1)) / (Site 0 * Site 0 * Site 0 * Site 0);
    Num (-6#1) * (Var 25 + Var 26 / Num (2#1)) / (Site 0 * Site 0 * Site 0 * Site 0);
    Num (-6#1) * (Var 25 + Var 26 / Num (2#1)) / (Site 0 * Site 0 * Site 0 * Site 0);
    Num (-6#1) * (Var 25 + Var 26 / Num (2#1)) / (Site 0 * Site 0 * Site 0 * Site 0);
    Num (-6#1) * (Var 25 + Var 26 / Num (2#1)) / (Site 0 * Site 0 * Site 0 * Site 0) + Num (2#1) / (Site 0 * Site 0 * Site 0);
    Num (-6#1) * (Var 25 + Var 26 / Num (2#1)) / (Site 0 * Site 0 * Site 0 * Site 0) + Num (1#1) / (Site 0 * Site 0 * Site 0)];
    [Num (-6#1) * (Var 25 + Var 26 / Num (2#1)) / (Site 0 * Site 0 * Site 0 * Site 0);
    Num (-6#1) * (Var 25 + Var 26 / Num (2#1)) / (Site 0 * Site 0 * Site 0 * Site 0);
    Num (-6#1) * (Var 25 + Var 26 / Num (2#1)) / (Site 0 * Site 0 * Site 0 * Site 0);
    Num (-6#1) * (Var 25 + Var 26 / Num (2#1)) / (Site 0 * Site 0 * Site 0 * Site 0);
    Num (-6#1) * (Var 25 + Var 26 / Num (2#1)) / (Site 0 * Site 0 * Site 0 * Site 0);
    Num (-6#1) * (Var 25 + Var 26 / Num (2#1)) / (Site 0 * Site 0 * Site 0 * Site 0) + Num (2#1) / (Site 0 * Site 0 * Site 0);
    Num (-6#1) * (Var 25 + Var 26 / Num (2#1)) / (Site 0 * Site 0 * Site 0 * Site 0) + Num (1#1) / (Site 0 * Site 0 * Site 0)];
    [Num (-6#1) * (Var 25 + Var 26 / Num (2#1)) / (Site 0 * Site 0 * Site 0 * Site 0);
    Num (-6#1) * (Var 25 + Var 26 / Num (2#1)) / (Site 0 * Site 0 * Site 0 * Site 0);
    Num (-6#1) * (Var 25 + Var 26 / Num (2#1)) / (Site 0 * Site 0 * Site 0 * Site 0);
    Num (-6#1) * (Var 25 + Var 26 / Num (2#1)) / (Site 0 * Site 0 * Site 0 * Site 0);
    Num (-6#1) * (Var 25 + Var 26 / Num (2#1)) / (Site 0 * Site 0 * Site 0 * Site 0);
    Num (-6#1) * (Var 25 + Var 26 / Num (2#1)) / (Site 0 * Site 0 * Site 0 * Site 0) + Num (2#1) / (Site 0 * Site 0 * Site 0);
    Num (-6#1) * (Var 25 + Var 26 / Num (2#1)) / (Site 0 * Site 0 * Site 0 * Site 0) + Num (1#1) / (Site 0 * Site 0 * Site 0)];
    [Num (-6#1) * (Var 25 + Var 26 / Num (2#1)) / (Site 0 * Site 0 * Site 0 * Site 0);
    Num (-6#1) * (Var 25 + Var 26 / Num (2#1)) / (Site 0 * Site 0 * Site 0 * Site 0);
    Num (-6#1) * (Var 25 + Var 26 / Num (2#1)) / (Site 0 * Site 0 * Site 0 * Site 0);
    Num (-6#1) * (Var 25 + Var 26 / Num (2#1)) / (Site 0 * Site 0 * Site 0 * Site 0);
    Num (-6#1) * (Var 25 + Var 26 / Num (2#1)) / (Site 0 * Site 0 * Site 0 * Site 0);
    Num (-6#1) * (Var 25 + Var 26 / Num (2#1)) / (Site 0 * Site 0 * Site 0 * Site 0) + Num (2#1) / (Site 0 * Site 0 * Site 0);
    Num (-6#1) * (Var 25 + Var 26 / Num (2#1)) / (Site 0 * Site 0 * Site 0 * Site 0) + Num (1#1) / (Site 0 * Site 0 * Site 0)];
    [Num (-6#1) * (Var 25 + Var 26 / Num (2#1)) / (Site 0 * Site 0 * Site 0 * Site 0);
    Num (-6#1) * (Var 25 + Var 26 / Num (2#1)) / (Site 0 * Site 0 * Site 0 * Site 0);
    Num (-6#1) * (Var 25 + Var 26 / Num (2#1)) / (Site 0 * Site 0 * Site 0 * Site 0);
    Num (-6#1) * (Var 25 + Var 26 / Num (2#1)) / (Site 0 * Site 0 * Site 0 * Site 0);
    Num (-6#1) * (Var 25 + Var 26 / Num (2#1)) / (Site 0 * Site 0 * Site 0 * Site 0);
    Num (-6#1) * (Var 25 + Var 26 / Num (2#1)) / (Site 0 * Site 0 * Site 0 * Site 0) + Num (2#1) / (Site 0 * Site 0 * Site 0);
    Num (-6#1) * (Var 25 + Var 26 / Num (2#1)) / (Site 0 * Site 0 * Site 0 * Site 0) + Num (1#1) / (Site 0 * Site 0 * Site 0)];
    [Num (-6#1) * (Var 25 + Var 26 / Num (2#1)) / (Site 0 * Site 0 * Site 0 * Site 0) + Num (2#1) / (Site 0 * Site 0 * Site 0);
    Num (-6#1) * (Var 25 + Var 26 / Num (2#1)) / (Site 0 * Site 0 * Site 0 * Site 0) + Num (2#1) / (Site 0 * Site 0 * Site 0);
    Num (-6#1) * (Var 25 + Var 26 / Num (2#1)) / (Site 0 * Site 0 * Site 0 * Site 0) + Num (2#1) / (Site 0 * Site 0 * Site 0);
    Num (-6#1) * (Var 25 + Var 26 / Num (2#1)) / (Site 0 * Site 0 * Site 0 * Site 0) + Num (2#1) / (Site 0 * Site 0 * Site 0);
    Num (-6#1) * (Var 25 + Var 26 / Num (2#1)) / (Site 0 * Site 0 * Site 0 * Site 0) + Num (2#1) / (Site 0 * Site 0 * Site 0);
    Num (-6#1) * (Var 25 + Var 26 / Num (2#1)) / (Site 0 * Site 0 * Site 0 * Site 0) + Num (2#1) / (Site 0 * Site 0 * Site 0) + Num (2#1) / (Site 0 * Site 0 * Site 0);
    Num (-6#1) * (Var 25 + Var 26 / Num (2#1)) / (Site 0 * Site 0 * Site 0 * Site 0) + Num (2#1) / (Site 0 * Site 0 * Site 0) + Num (1#1) / (Site 0 * Site 0 * Site 0)];
    [Num (-6#1) * (Var 25 + Var 26 / Num (2#1)) / (Site 0 * Site 0 * Site 0 * Site 0) + Num (1#1) / (Site 0 * Site 0 * Site 0);
    Num (-6#1) * (Var 25 + Var 26 / Num (2#1)) / (Site 0 * Site 0 * Site 0 * Site 0) + Num (1#1) / (Site 0 * Site 0 * Site 0);
    Num (-6#1) * (Var 25 + Var 26 / Num (2#1)) / (Site 0 * Site 0 * Site 0 * Site 0) + Num (1#1) / (Site 0 * Site 0 * Site 0);
    Num (-6#1) * (Var 25 + Var 26 / Num (2#1)) / (Site 0 * Site 0 * Site 0 * Site 0) + Num (1#1) / (Site 0 * Site 0 * Site 0);
    Num (-6#1) * (Var 25 + Var 26 / Num (2#1)) / (Site 0 * Site 0 * Site 0 * Site 0) + Num (1#1) / (Site 0 * Site 0 * Site 0);
    Num (-6#1) * (Var 25 + Var 26 / Num (2#1)) / (Site 0 * Site 0 * Site 0 * Site 0) + Num (2#1) / (Site 0 * Site 0 * Site 0) + Num (1#1) / (Site 0 * Site 0 * Site 0);
    Num (-6#1) * (Var 25 + Var 26 / Num (2#1)) / (Site 0 * Site 0 * Site 0 * Site 0) + Num (1#1) / (Site 0 * Site 0 * Site 0) + Num (1#1) / (Site 0 * Site 0 * Site 0)]];
    [[Num (-6#1) * (Var 25 + Var 26 / Num (2#1)) / (Site 0 * Site 0 * Site 0 * Site 0);
    Num (-6#1) * (Var 25 + Var 26 / Num (2#1)) / (Site 0 * Site 0 * Site 0 * Site 0);
    Num (-6#1) * (Var 25 + Var 26 / Num (2#1)) / (Site 0 * Site 0 * Site 0 * Site 0);
    Num (-6#1) * (Var 25 + Var 26 / Num (2#1)) / (Site 0 * Site 0 * Site 0 * Site 0);
    Num (-6#1) * (Var 25 + Var 26 / Num (2#1)) / (Site 0 * Site 0 * Site 0 * Site 0);
    Num (-6#1) * (Var 25 + Var 26 / Num (2#1)) / (Site 0 * Site 0 * Site 0 * Site 0) + Num (2#1) / (Site 0 * Site 0 * Site 0);
    Num (-6#1) * (Var 25 + Var 26 / Num (2#1)) / (Site 0 * Site 0 * Site 0 * Site 0) + Num (1#1) / (Site 0 * Site 0 * Site 0)];
    [Num (-6#1) * (Var 25 + Var 26 / Num (2#1)) / (Site 0 * Site 0 * Site 0 * Site 0);
    Num (-6#1) * (Var 25 + Var 26 / Num (2#1)) / (Site 0 * Site 0 * Site 0 * Site 0);
    Num (-6#1) * (Var 25 + Var 26 / Num (2#1)) / (Site 0 * Site 0 * Site 0 * Site 0);
    Num (-6#1) * (Var 25 + Var 26 / Num (2#1)) / (Site 0 * Site 0 * Site 0 * Site 0);
    Num (-6#1) * (Var 25 + Var 26 / Num (2#1)) / (Site 0 * Site 0 * Site 0 * Site 0);
    Num (-6#1) * (Var 25 + Var 26 / Num (2#1)) / (Site 0 * Site 0 * Site 0 * Site 0) + Num (2#1) / (Site 0 * Site 0 * Site 0);
    Num (-6#1) * (Var 25 + Var 26 / Num (2#1)) / (Site 0 * Site 0 * Site 0 * Site 0) + Num (1#1) / (Site 0 * Site 0 * Site 0)];
    [Num (-6#1) * (Var 25 + Var 26 / Num (2#1)) / (Site 0 * Site 0 * Site 0 * Site 0);
    Num (-6#1) * (Var 25 + Var 26 / Num (2#1)) / (Site 0 * Site 0 * Site 0 * Site 0);
    Num (-6#1) * (Var 25 + Var 26 / Num (2#1)) / (Site 0 * Site 0 * Site 0 * Site 0);
    Num (-6#1) * (Var 25 + Var 26 / Num (2#1)) / (Site 0 * Site 0 * Site 0 * Site 0);
    Num (-6#1) * (Var 25 + Var 26 / Num (2#1)) / (Site 0 * Site 0 * Site 0 * Site 0);
    Num (-6#1) * (Var 25 + Var 26 / Num (2#1)) / (Site 0 * Site 0 * Site 0 * Site 0) + Num (2#1) / (Site 0 * Site 0 * Site 0);
    Num (-6#1) * (Var 25 + Var 26 / Num (2#1)) / (Site 0 * Site 0 * Site 0 * Site 0) + Num (1#1) / (Site 0 * Site 0 * Site 0)];
    [Num (-6#1) * (Var 25 + Var 26 / Num (2#1)) / (Site 0 * Site 0 * Site 0 * Site 0);
    Num (-6#1) * (Var 25 + Var 26 / Num (2#1)) / (Site 0 * Site 0 * Site 0 * Site 0);
    Num (-6#1) * (Var 25 + Var 26 / Num (2#1)) / (Site 0 * Site 0 * Site 0 * Site 0);
    Num (-6#1) * (Var 25 + Var 26 / Num (2#1)) / (Site 0 * Site 0 * Site 0 * Site 0);
    Num (-6#1) * (Var 25 + Var 26 / Num (2#1)) / (Site 0 * Site 0 * Site 0 * Site 0);
    Num (-6#1) * (Var 25 + Var 26 / Num (2#1)) / (Site 0 * Site 0 * Site 0 * Site 0) + Num (2#1) / (Site 0 * Site 0 * Site 0);
    Num (-6#1) * (Var 25 + Var 26 / Num (2#1)) / (Site 0 * Site 0 * Site 0 * Site 0) + Num (1#1) / (Site 0 * Site 0 * Site 0)];
    [Num (-6#1) * (Var 25 + Var 26 / Num (2#1)) / (Site 0 * Site 0 * Site 0 * Site 0);
    Num (-6#1) * (Var 25 + Var 26 / Num (2#1)) / (Site 0 * Site 0 * Site 0 * Site 0);
    Num (-6#1) * (Var 25 + Var 26 / Num (2#1)) / (Site 0 * Site 0 * Site 0 * Site 0);
    Num (-6#1) * (Var 25 + Var 26 / Num (2#1)) / (Site 0 * Site 0 * Site 0 * Site 0);
    Num (-6#1) * (Var 25 + Var 26 / Num (2#1)) / (Site 0 * Site 0 * Site 0 * Site 0);
    Num (-6#1) * (Var 25 + Var 26 / Num (2#1)) / (Site 0 * Site 0 * Site 0 * Site 0) + Num (2#1) / (Site 0 * Site 0 * Site 0);
    Num (-6#1) * (Var 25 + Var 26 / Num (2#1)) / (Site 0 * Site 0 * Site 0 * Site 0) + Num (1#1) / (Site 0 * Site 0 * Site 0)];
    [Num (-6#1) * (Var 25 + Var 26 / Num (2#1)) / (Site 0 * Site 0 * Site 0 * Site 0) + Num (2#1) / (Site 0 * Site 0 * Site 0);
    Num (-6#1) * (Var 25 + Var 26 / Num (2#1)) / (Site 0 * Site 0 * Site 0 * Site 0) + Num (2#1) / (Site 0 * Site 0 * Site 0);
    Num (-6#1) * (Var 25 + Var 26 / Num (2#1)) / (Site 0 * Site 0 * Site 0 * Site 0) + Num (2#1) / (Site 0 * Site 0 * Site 0);
    Num (-6#1) * (Var 25 + Var 26 / Num (2#1)) / (Site 0 * Site 0 * Site 0 * Site 0) + Num (2#1) / (Site 0 * Site 0 * Site 0);
    Num (-6#1) * (Var 25 + Var 26 / Num (2#1)) / (Site 0 * Site 0 * Site 0 * Site 0) + Num (2#1) / (Site 0 * Site 0 * Site 0);
    Num (-6#1) * (Var 25 + Var 26 / Num (2#1)) / (Site 0 * Site 0 * Site 0 * Site 0) + Num (2#1) / (Site 0 * Site 0 * Site 0) + Num (2#1) / (Site 0 * Site 0 * Site 0);
    Num (-6#1) * (Var 25 + Var 26 / Num (2#1)) / (Site 0 * Site 0 * Site 0 * Site 0) + Num (2#1) / (Site 0 * Site 0 * Site 0) + Num (1#1) / (Site 0 * Site 0 * Site 0)];
    [Num (-6#1) * (Var 25 + Var 26 / Num (2#1)) / (Site 0 * Site 0 * Site 0 * Site 0) + Num (1#1) / (Site 0 * Site 0 * Site 0);
    Num (-6#1) * (Var 25 + Var 26 / Num (2#1)) / (Site 0 * Site 0 * Site 0 * Site 0) + Num (1#1) / (Site 0 * Site 0 * Site 0);
    Num (-6#1) * (Var 25 + Var 26 / Num (2#1)) / (Site 0 * Site 0 * Site 0 * Site 0) + Num (1#1) / (Site 0 * Site 0 * Site 0);
    Num (-6#1) * (Var 25 + Var 26 / Num (2#1)) / (Site 0 * Site 0 * Site 0 * Site 0) + Num (1#1) / (Site 0 * Site 0 * Site 0);
    Num (-6#1) * (Var 25 + Var 26 / Num (2#1)) / (Site 0 * Site 0 * Site 0 * Site 0) + Num (1#1) / (Site 0 * Site 0 * Site 0);
    Num (-6#1) * (Var 25 + Var 26 / Num (2#1)) / (Site 0 * Site 0 * Site 0 * Site 0) + Num (2#1) / (Site 0 * Site 0 * Site 0) + Num (1#1) / (Site 0 * Site 0 * Site 0);
    Num (-6#1) * (Var 25 + Var 26 / Num (2#1)) / (Site 0 * Site 0 * Site 0 * Site 0) + Num (1#1) / (Site 0 * Site 0 * Site 0) + Num (1#1) / (Site 0 * Site 0 * Site 0)]];
    [[Num (-6#1) * (Var 25 + Var 26 / Num (2#1)) / (Site 0 * Site 0 * Site 0 * Site 0);
    Num (-6#1) * (Var 25 + Var 26 / Num (2#1)) / (Site 0 * Site 0 * Site 0 * Site 0);
    Num (-6#1) * (Var 25 + Var 26 / Num (2#1)) / (Site 0 * Site 0 * Site 0 * Site 0);
    Num (-6#1) * (Var 25 + Var 26 / Num (2#1)) / (Site 0 * Site 0 * Site 0 * Site 0);
    Num (-6#1) * (Var 25 + Var 26 / Num (2#1)) / (Site 0 * Site 0 * Site 0 * Site 0);
    Num (-6#1) * (Var 25 + Var 26 / Num (2#1)) / (Site 0 * Site 0 * Site 0 * Site 0) + Num (2#1) / (Site 0 * Site 0 * Site 0);
    Num (-6#1) * (Var 25 + Var 26 / Num (2#1)) / (Site 0 * Site 0 * Site 0 * Site 0) + Num (1#1) / (Site 0 * Site 0 * Site 0)];
    [Num (-6#1) * (Var 25 + Var 26 / Num (2#1)) / (Site 0 * Site 0 * Site 0 * Site 0);
    Num (-6#1) * (Var 25 + Var 26 / Num (2#1)) / (Site 0 * Site 0 * Site 0 * Site 0);
    Num (-6#1) * (Var 25 + Var 26 / Num (2#1)) / (Site 0 * Site 0 * Site 0 * Site 0);
    Num (-6#1) * (Var 25 + Var 26 / Num (2#1)) / (Site 0 * Site 0 * Site 0 * Site 0);
    Num (-6#1) * (Var 25 + Var 26 / Num (2#1)) / (Site 0 * Site 0 * Site 0 * Site 0);
    Num (-6#1) * (Var 25 + Var 26 / Num (2#1)) / (Site 0 * Site 0 * Site 0 * Site 0) + Num (2#1) / (Site 0 * Site 0 * Site 0);
    Num (-6#1) * (Var 25 + Var 26 / Num (2#1)) / (Site 0 * Site 0 * Site 0 * Site 0) + Num (1#1) / (Site 0 * Site 0 * Site 0)];
    [Num (-6#1) * (Var 25 + Var 26 / Num (2#1)) / (Site 0 * Site 0 * Site 0 * Site 0);
    Num (-6#1) * (Var 25 + Var 26 / Num (2#1)) / (Site 0 * Site 0 * Site 0 * Site 0);
    Num (-6#1) * (Var 25 + Var 26 / Num (2#1)) / (Site 0 * Site 0 * Site 0 * Site 0);
    Num (-6#1) * (Var 25 + Var 26 / Num (2#1)) / (Site 0 * Site 0 * Site 0 * Site 0);
    Num (-6#1) * (Var 25 + Var 26 / Num (2#1)) / (Site 0 * Site 0 * Site 0 * Site 0);
    Num (-6#1) * (Var 25 + Var 26 / Num (2#1)) / (Site 0 * Site 0 * Site 0 * Site 0) + Num (2#1) / (Site 0 * Site 0 * Site 0);
    Num (-6#1) * (Var 25 + Var 26 / Num (2#1)) / (Site 0 * Site 0 * Site 0 * Site 0) + Num (1#1) / (Site 0 * Site 0 * Site 0)];
    [Num (-6#1) * (Var 25 + Var 26 / Num (2#1)) / (Site 0 * Site 0 * Site 0 * Site 0);
    Num (-6#1) * (Var 25 + Var 26 / Num (2#1)) / (Site 0 * Site 0 * Site 0 * Site 0);
    Num (-6#1) * (Var 25 + Var 26 / Num (2#1)) / (Site 0 * Site 0 * Site 0 * Site 0);
    Num (-6#1) * (Var 25 + Var 26 / Num (2#1)) / (Site 0 * Site 0 * Site 0 * Site 0);
    Num (-6#1) * (Var 25 + Var 26 / Num (2#1)) / (Site 0 * Site 0 * Site 0 * Site 0);
    Num (-6#1) * (Var 25 + Var 26 / Num (2#1)) / (Site 0 * Site 0 * Site 0 * Site 0) + Num (2#1) / (Site 0 * Site 0 * Site 0);
    Num (-6#1) * (Var 25 + Var 26 / Num (2#1)) / (Site 0 * Site 0 * Site 0 * Site 0) + Num (1#1) / (Site 0 * Site 0 * Site 0)];
    [Num (-6#1) * (Var 25 + Var 26 / Num (2#1)) / (Site 0 * Site 0 * Site 0 * Site 0);
    Num (-6#1) * (Var 25 + Var 26 / Num (2#1)) / (Site 0 * Site 0 * Site 0 * Site 0);
    Num (-6#1) * (Var 25 + Var 26 / Num (2#1)) / (Site 0 * Site 0 * Site 0 * Site 0);
    Num (-6#1) * (Var 25 + Var 26 / Num (2#1)) / (Site 0 * Site 0 * Site 0 * Site 0);
    Num (-6#1) * (Var 25 + Var 26 / Num (2#1)) / (Site 0 * Site 0 * Site 0 * Site 0);
    Num (-6#1) * (Var 25 + Var 26 / Num (2#1)) / (Site 0 * Site 0 * Site 0 * Site 0) + Num (2#1) / (Site 0 * Site 0 * Site 0);
    Num (-6#1) * (Var 25 + Var 26 / Num (2#1)) / (Site 0 * Site 0 * Site 0 * Site 0) + Num (1#1) / (Site 0 * Site 0 * Site 0)];
    [Num (-6#1) * (Var 25 + Var 26 / Num (2#1)) / (Site 0 * Site 0 * Site 0 * Site 0) + Num (2#1) / (Site 0 * Site 0 * Site 0);
    Num (-6#1) * (Var 25 + Var 26 / Num (2#1)) / (Site 0 * Site 0 * Site 0 * Site 0) + Num (2#1) / (Site 0 * Site 0 * Site 0);
    Num (-6#1) * (Var 25 + Var 26 / Num (2#1)) / (Site 0 * Site 0 * Site 0 * Site 0) + Num (2#1) / (Site 0 * Site 0 * Site 0);
    Num (-6#1) * (Var 25 + Var 26 / Num (2#1)) / (Site 0 * Site 0 * Site 0 * Site 0) + Num (2#1) / (Site 0 * Site 0 * Site 0);
    Num (-6#1) * (Var 25 + Var 26 / Num (2#1)) / (Site 0 * Site 0 * Site 0 * Site 0) + Num (2#1) / (Site 0 * Site 0 * Site 0);
    Num (-6#1) * (Var 25 + Var 26 / Num (2#1)) / (Site 0 * Site 0 * Site 0 * Site 0) + Num (2#1) / (Site 0 * Site 0 * Site 0) + Num (2#1) / (Site 0 * Site 0 * Site 0);
    Num (-6#1) * (Var 25 + Var 26 / Num (2#1)) / (Site 0 * Site 0 * Site 0 * Site 0) + Num (2#1) / (Site 0 * Site 0 * Site 0) + Num (1#1) / (Site 0 * Site 0 * Site 0)];
    [Num (-6#1) * (Var 25 + Var 26 / Num (2#1)) / (Site 0 * Site 0 * Site 0 * Site 0) + Num (1#1) / (Site 0 * Site 0 * Site 0);
    Num (-6#1) * (Var 25 + Var 26 / Num (2#1)) / (Site 0 * Site 0 * Site 0 * Site 0) + Num (1#1) / (Site 0 * Site 0 * Site 0);
    Num (-6#1) * (Var 25 + Var 26 / Num (2#1)) / (Site 0 * Site 0 * Site 0 * Site 0) + Num (1#1) / (Site 0 * Site 0 * Site 0);
    Num (-6#1) * (Var 25 + Var 26 / Num (2#1)) / (Site 0 * Site 0 * Site 0 * Site 0) + Num (1#1) / (Site 0 * Site 0 * Site 0);
    Num (-6#1) * (Var 25 + Var 26 / Num (2#1)) / (Site 0 * Site 0 * Site 0 * Site 0) + Num (1#1) / (Site 0 * Site 0 * Site 0);
    Num (-6#1) * (Var 25 + Var 26 / Num (2#1)) / (Site 0 * Site 0 * Site 0 * Site 0) + Num (2#1) / (Site 0 * Site 0 * Site 0) + Num (1#1) / (Site 0 * Site 0 * Site 0);
    Num (-6#1) * (Var 25 + Var 26 / Num (2#1)) / (Site 0 * Site 0 * Site 0 * Site 0) + Num (1#1) / (Site 0 * Site 0 * Site 0) + Num (1#1) / (Site 0 * Site 0 * Site 0)]];
    [[Num (-6#1) * (Var 25 + Var 26 / Num (2#1)) / (Site 0 * Site 0 * Site 0 * Site 0);
    Num (-6#1) * (Var 25 + Var 26 / Num (2#1)) / (Site 0 * Site 0 * Site 0 * Site 0);
    Num (-6#1) * (Var 25 + Var 26 / Num (2#1)) / (Site 0 * Site 0 * Site 0 * Site 0);
    Num (-6#1) * (Var 25 + Var 26 / Num (2#1)) / (Site 0 * Site 0 * Site 0 * Site 0);
    Num (-6#1) * (Var 25 + Var 26 / Num (2#1)) / (Site 0 * Site 0 * Site 0 * Site 0);
    Num (-6#1) * (Var 25 + Var 26 / Num (2#1)) / (Site 0 * Site 0 * Site 0 * Site 0) + Num (2#1) / (Site 0 * Site 0 * Site 0);
    Num (-6#1) * (Var 25 + Var 26 / Num (2#1)) / (Site 0 * Site 0 * Site 0 * Site 0) + Num (1#1) / (Site 0 * Site 0 * Site 0)];
    [Num (-6#1) * (Var 25 + Var 26 / Num (2#1)) / (Site 0 * Site 0 * Site 0 * Site 0);
    Num (-6#1) * (Var 25 + Var 26 / Num (2#1)) / (Site 0 * Site 0 * Site 0 * Site 0);
    Num (-6#1) * (Var 25 + Var 26 / Num (2#1)) / (Site 0 * Site 0 * Site 0 * Site 0);
    Num (-6#1) * (Var 25 + Var 26 / Num (2#1)) / (Site 0 * Site 0 * Site 0 * Site 0);
    Num (-6#1) * (Var 25 + Var 26 / Num (2#1)) / (Site 0 * Site 0 * Site 0 * Site 0);
    Num (-6#1) * (Var 25 + Var 26 / Num (2#1)) / (Site 0 * Site 0 * Site 0 * Site 0) + Num (2#1) / (Site 0 * Site 0 * Site 0);
    Num (-6#1) * (Var 25 + Var 26 / Num (2#1)) / (Site 0 * Site 0 * Site 0 * Site 0) + Num (1#1) / (Site 0 * Site 0 * Site 0)];
    [Num (-6#1) * (Var 25 + Var 26 / Num (2#1)) / (Site 0 * Site 0 * Site 0 * Site 0);
    Num (-6#1) * (Var 25 + Var 26 / Num (2#1)) / (Site 0 * Site 0 * Site 0 * Site 0);
    Num (-6#1) * (Var 25 + Var 26 / Num (2#1)) / (Site 0 * Site 0 * Site 0 * Site 0);
    Num (-6#1) * (Var 25 + Var 26 / Num (2#1)) / (Site 0 * Site 0 * Site 0 * Site 0);
    Num (-6#1) * (Var 25 + Var 26 / Num (2#1)) / (Site 0 * Site 0 * Site 0 * Site 0);
    Num (-6#1) * (Var 25 + Var 26 / Num (2#1)) / (Site 0 * Site 0 * Site 0 * Site 0) + Num (2#1) / (Site 0 * Site 0 * Site 0);
    Num (-6#1) * (Var 25 + Var 26 / Num (2#1)) / (Site 0 * Site 0 * Site 0 * Site 0) + Num (1#1) / (Site 0 * Site 0 * Site 0)];
    [Num (-6#1) * (Var 25 + Var 26 / Num (2#1)) / (Site 0 * Site 0 * Site 0 * Site 0);
    Num (-6#1) * (Var 25 + Var 26 / Num (2#1)) / (Site 0 * Site 0 * Site 0 * Site 0);
    Num (-6#1) * (Var 25 + Var 26 / Num (2#1)) / (Site 0 * Site 0 * Site 0 * Site 0);
    Num (-6#1) * (Var 25 + Var 26 / Num (2#1)) / (Site 0 * Site 0 * Site 0 * Site 0);
    Num (-6#1) * (Var 25 + Var 26 / Num (2#1)) / (Site 0 * Site 0 * Site 0 * Site 0);
    Num (-6#1) * (Var 25 + Var 26 / Num (2#1)) / (Site 0 * Site 0 * Site 0 * Site 0) + Num (2#1) / (Site 0 * Site 0 * Site 0);
    Num (-6#1) * (Var 25 + Var 26 / Num (2#1)) / (Site 0 * Site 0 * Site 0 * Site 0) + Num (1#1) / (Site 0 * Site 0 * Site 0)];
    [Num (-6#1) * (Var 25 + Var 26 / Num (2#1)) / (Site 0 * Site 0 * Site 0 * Site 0);
    Num (-6#1) * (Var 25 + Var 26 / Num (2#1)) / (Site 0 * Site 0 * Site 0 * Site 0);
    Num (-6#1) * (Var 25 + Var 26 / Num (2#1)) / (Site 0 * Site 0 * Site 0 * Site 0);
    Num (-6#1) * (Var 25 + Var 26 / Num (2#1)) / (Site 0 * Site 0 * Site 0 * Site 0);
    Num (-6#1) * (Var 25 + Var 26 / Num (2#1)) / (Site 0 * Site 0 * Site 0 * Site 0);
    Num (-6#1) * (Var 25 + Var 26 / Num (2#1)) / (Site 0 * Site 0 * Site 0 * Site 0) + Num (2#1) / (Site 0 * Site 0 * Site 0);
    Num (-6#1) * (Var 25 + Var 26 / Num (2#1)) / (Site 0 * Site 0 * Site 0 * Site 0) + Num (1#1) / (Site 0 * Site 0 * Site 0)];
    [Num (-6#1) * (Var 25 + Var 26 / Num (2#1)) / (Site 0 * Site 0 * Site 0 * Site 0) + Num (2#1) / (Site 0 * Site 0 * Site 0);
    Num (-6#1) * (Var 25 + Var 26 / Num (2#1)) / (Site 0 * Site 0 * Site 0 * Site 0) + Num (2#1) / (Site 0 * Site 0 * Site 0);
    Num (-6#1) * (Var 25 + Var 26 / Num (2#1)) / (Site 0 * Site 0 * Site 0 * Site 0) + Num (2#1) / (Site 0 * Site 0 * Site 0);
    Num (-6#1) * (Var 25 + Var 26 / Num (2#1)) / (Site 0 * Site 0 * Site 0 * Site 0) + Num (2#1) / (Site 0 * Site 0 * Site 0);
    Num (-6#1) * (Var 25 + Var 26 / Num (2#1)) / (Site 0 * Site 0 * Site 0 * Site 0) + Num (2#1) / (Site 0 * Site 0 * Site 0);
    Num (-6#1) * (Var 25 + Var 26 / Num (2#1)) / (Site 0 * Site 0 * Site 0 * Site 0) + Num (2#1) / (Site 0 * Site 0 * Site 0) + Num (2#1) / (Site 0 * Site 0 * Site 0);
    Num (-6#1) * (Var 25 + Var 26 / Num (2#1)) / (Site 0 * Site 0 * Site 0 * Site 0) + Num (2#1) / (Site 0 * Site 0 * Site 0) + Num (1#1) / (Site 0 * Site 0 * Site 0)];
    [Num (-6#1) * (Var 25 + Var 26 / Num (2#1)) / (Site 0 * Site 0 * Site 0 * Site 0) + Num (1#1) / (Site 0 * Site 0 * Site 0);
    Num (-6#1) * (Var 25 + Var 26 / Num (2#1)) / (Site 0 * Site 0 * Site 0 * Site 0) + Num (1#1) / (Site 0 * Site 0 * Site 0);
    Num (-6#1) * (Var 25 + Var 26 / Num (2#1)) / (Site 0 * Site 0 * Site 0 * Site 0) + Num (1#1) / (Site 0 * Site 0 * Site 0);
    Num (-6#1) * (Var 25 + Var 26 / Num (2#1)) / (Site 0 * Site 0 * Site 0 * Site 0) + Num (1#1) / (Site 0 * Site 0 * Site 0);
    Num (-6#1) * (Var 25 + Var 26 / Num (2#1)) / (Site 0 * Site 0 * Site 0 * Site 0) + Num (1#1) / (Site 0 * Site 0 * Site 0);
    Num (-6#1) * (Var 25 + Var 26 / Num (2#1)) / (Site 0 * Site 0 * Site 0 * Site 0) + Num (2#1) / (Site 0 * Site 0 * Site 0) + Num (1#1) / (Site 0 * Site 0 * Site 0);
    Num (-6#1) * (Var 25 + Var 26 / Num (2#1)) / (Site 0 * Site 0 * Site 0 * Site 0) + Num (1#1) / (Site 0 * Site 0 * Site 0) + Num (1#1) / (Site 0 * Site 0 * Site 0)]];
    [[Num (-6#1) * (Var 25 + Var 26 / Num (2#1)) / (Site 0 * Site 0 * Site 0 * Site 0) + Num (2#1) / (Site 0 * Site 0 * Site 0);
    Num (-6#1) * (Var 25 + Var 26 / Num (2#1)) / (Site 0 * Site 0 * Site 0 * Site 0) + Num (2#1) / (Site 0 * Site 0 * Site 0);
    Num (-6#1) * (Var 25 + Var 26 / Num (2#1)) / (Site 0 * Site 0 * Site 0 * Site 0) + Num (2#1) / (Site 0 * Site 0 * Site 0);
    Num (-6#1) * (Var 25 + Var 26 / Num (2#1)) / (Site 0 * Site 0 * Site 0 * Site 0) + Num (2#1) / (Site 0 * Site 0 * Site 0);
    Num (-6#1) * (Var 25 + Var 26 / Num (2#1)) / (Site 0 * Site 0 * Site 0 * Site 0) + Num (2#1) / (Site 0 * Site 0 * Site 0);
    Num (-6#1) * (Var 25 + Var 26 / Num (2#1)) / (Site 0 * Site 0 * Site 0 * Site 0) + Num (2#1) / (Site 0 * Site 0 * Site 0) + Num (2#1) / (Site 0 * Site 0 * Site 0);
    Num (-6#1) * (Var 25 + Var 26 / Num (2#1)) / (Site 0 * Site 0 * Site 0 * Site 0) + Num (2#1) / (Site 0 * Site 0 * Site 0) + Num (1#1) / (Site 0 * Site 0 * Site 0)];
    [Num (-6#1) * (Var 25 + Var 26 / Num (2#1)) / (Site 0 * Site 0 * Site 0 * Site 0) + Num (2#1) / (Site 0 * Site 0 * Site 0);
    Num (-6#1) * (Var 25 + Var 26 / Num (2#1)) / (Site 0 * Site 0 * Site 0 * Site 0) + Num (2#1) / (Site 0 * Site 0 * Site 0);
    Num (-6#1) * (Var 25 + Var 26 / Num (2#1)) / (Site 0 * Site 0 * Site 0 * Site 0) + Num (2#1) / (Site 0 * Site 0 * Site 0);
    Num (-6#1) * (Var 25 + Var 26 / Num (2#1)) / (Site 0 * Site 0 * Site 0 * Site 0) + Num (2#1) / (Site 0 * Site 0 * Site 0);
    Num (-6#1) * (Var 25 + Var 26 / Num (2#1)) / (Site 0 * Site 0 * Site 0 * Site 0) + Num (2#1) / (Site 0 * Site 0 * Site 0);
    Num (-6#1) * (Var 25 + Var 26 / Num (2#1)) / (Site 0 * Site 0 * Site 0 * Site 0) + Num (2#1) / (Site 0 * Site 0 * Site 0) + Num (2#1) / (Site 0 * Site 0 * Site 0);
    Num (-6#1) * (Var 25 + Var 26 / Num (2#1)) / (Site 0 * Site 0 * Site 0 * Site 0) + Num (2#1) / (Site 0 * Site 0 * Site 0) + Num (1#1) / (Site 0 * Site 0 * Site 0)];
    [Num (-6#1) * (Var 25 + Var 26 / Num (2#1)) / (Site 0 * Site 0 * Site 0 * Site 0) + Num (2#1) / (Site 0 * Site 0 * Site 0);
    Num (-6#1) * (Var 25 + Var 26 / Num (2#1)) / (Site 0 * Site 0 * Site 0 * Site 0) + Num (2#1) / (Site 0 * Site 0 * Site 0);
    Num (-6#1) * (Var 25 + Var 26 / Num (2#1)) / (Site 0 * Site 0 * Site 0 * Site 0) + Num (2#1) / (Site 0 * Site 0 * Site 0);
    Num (-6#1) * (Var 25 + Var 26 / Num (2#1)) / (Site 0 * Site 0 * Site 0 * Site 0) + Num (2#1) / (Site 0 * Site 0 * Site 0);
    Num (-6#1) * (Var 25 + Var 26 / Num (2#1)) / (Site 0 * Site 0 * Site 0 * Site 0) + Num (2#1) / (Site 0 * Site 0 * Site 0);
    Num (-6#1) * (Var 25 + Var 26 / Num (2#1)) / (Site 0 * Site 0 * Site 0 * Site 0) + Num (2#1) / (Site 0 * Site 0 * Site 0) + Num (2#1) / (Site 0 * Site 0 * Site 0);
    Num (-6#1) * (Var 25 + Var 26 / Num (2#1)) / (Site 0 * Site 0 * Site 0 * Site 0) + Num (2#1) / (Site 0 * Site 0 * Site 0) + Num (1#1) / (Site 0 * Site 0 * Site 0)];
    [Num (-6#1) * (Var 25 + Var 26 / Num (2#1)) / (Site 0 * Site 0 * Site 0 * Site 0) + Num (2#1) / (Site 0 * Site 0 * Site 0);
    Num (-6#1) * (Var 25 + Var 26 / Num (2#1)) / (Site 0 * Site 0 * Site 0 * Site 0) + Num (2#1) / (Site 0 * Site 0 * Site 0);
    Num (-6#1) * (Var 25 + Var 26 / Num (2#1)) / (Site 0 * Site 0 * Site 0 * Site 0) + Num (2#1) / (Site 0 * Site 0 * Site 0);
    Num (-6#1) * (Var 25 + Var 26 / Num (2#1)) / (Site 0 * Site 0 * Site 0 * Site 0) + Num (2#1) / (Site 0 * Site 0 * Site 0);
    Num (-6#1) * (Var 25 + Var 26 / Num (2#1)) / (Site 0 * Site 0 * Site 0 * Site 0) + Num (2#1) / (Site 0 * Site 0 * Site 0);
    Num (-6#1) * (Var 25 + Var 26 / Num (2#1)) / (Site 0 * Site 0 * Site 0 * Site 0) + Num (2#1) / (Site 0 * Site 0 * Site 0) + Num (2#1) / (Site 0 * Site 0 * Site 0);
    Num (-6#1) * (Var 25 + Var 26 / Num (2#1)) / (Site 0 * Site 0 * Site 0 * Site 0) + Num (2#1) / (Site 0 * Site 0 * Site 0) + Num (1#1) / (Site 0 * Site 0 * Site 0)];
    [Num (-6#1) * (Var 25 + Var 26 / Num (2#1)) / (Site 0 * Site 0 * Site 0 * Site 0) + Num (2#1) / (Site 0 * Site 0 * Site 0);
    Num (-6#1) * (Var 25 + Var 26 / Num (2#1)) / (Site 0 * Site 0 * Site 0 * Site 0) + Num (2#1) / (Site 0 * Site 0 * Site 0);
    Num (-6#1) * (Var 25 + Var 26 / Num (2#1)) / (Site 0 * Site 0 * Site 0 * Site 0) + Num (2#1) / (Site 0 * Site 0 * Site 0);
    Num (-6#1) * (Var 25 + Var 26 / Num (2#1)) / (Site 0 * Site 0 * Site 0 * Site 0) + Num (2#1) / (Site 0 * Site 0 * Site 0);
    Num (-6#1) * (Var 25 + Var 26 / Num (2#1)) / (Site 0 * Site 0 * Site 0 * Site 0) + Num (2#1) / (Site 0 * Site 0 * Site 0);
    Num (-6#1) * (Var 25 + Var 26 / Num (2#1)) / (Site 0 * Site 0 * Site 0 * Site 0) + Num (2#1) / (Site 0 * Site 0 * Site 0) + Num (2#1) / (Site 0 * Site 0 * Site 0);
    Num (-6#1) * (Var 25 + Var 26 / Num (2#1)) / (Site 0 * Site 0 * Site 0 * Site 0) + Num (2#1) / (Site 0 * Site 0 * Site 0) + Num (1#1) / (Site 0 * Site 0 * Site 0)];
    [Num (-6#1) * (Var 25 + Var 26 / Num (2#1)) / (Site 0 * Site 0 * Site 0 * Site 0) + Num (2#1) / (Site 0 * Site 0 * Site 0) + Num (2#1) / (Site 0 * Site 0 * Site 0);
    Num (-6#1) * (Var 25 + Var 26 / Num (2#1)) / (Site 0 * Site 0 * Site 0 * Site 0) + Num (2#1) / (Site 0 * Site 0 * Site 0) + Num (2#1) / (Site 0 * Site 0 * Site 0);
    Num (-6#1) * (Var 25 + Var 26 / Num (2#1)) / (Site 0 * Site 0 * Site 0 * Site 0) + Num (2#1) / (Site 0 * Site 0 * Site 0) + Num (2#1) / (Site 0 * Site 0 * Site 0);
    Num (-6#1) * (Var 25 + Var 26 / Num (2#1)) / (Site 0 * Site 0 * Site 0 * Site 0) + Num (2#1) / (Site 0 * Site 0 * Site 0) + Num (2#1) / (Site 0 * Site 0 * Site 0);
    Num (-6#1) * (Var 25 + Var 26 / Num (2#1)) / (Site 0 * Site 0 * Site 0 * Site 0) + Num (2#1) / (Site 0 * Site 0 * Site 0) + Num (2#1) / (Site 0 * Site 0 * Site 0);
    Num (-6#1) * (Var 25 + Var 26 / Num (2#1)) / (Site 0 * Site 0 * Site 0 * Site 0) + Num (2#1) / (Site 0 * Site 0 * Site 0) + Num (2#1) / (Site 0 * Site 0 * Site 0) + Num (2#1) / (Site 0 * Site 0 * Site 0);
    Num (-6#1) * (Var 25 + Var 26 / Num (2#1)) / (Site 0 * Site 0 * Site 0 * Site 0) + Num (2#1) / (Site 0 * Site 0 * Site 0) + Num (2#1) / (Site 0 * Site 0 * Site 0) + Num (1#1) / (Site 0 * Site 0 * Site 0)];
    [Num (-6#1) * (Var 25 + Var 26 / Num (2#1)) / (Site 0 * Site 0 * Site 0 * Site 0) + Num (2#1) / (Site 0 * Site 0 * Site 0) + Num (1#1) / (Site 0 * Site 0 * Site 0);
    Num (-6#1) * (Var 25 + Var 26 / Num (2#1)) / (Site 0 * Site 0 * Site 0 * Site 0) + Num (2#1) / (Site 0 * Site 0 * Site 0) + Num (1#1) / (Site 0 * Site 0 * Site 0);
    Num (-6#1) * (Var 25 + Var 26 / Num (2#1)) / (Site 0 * Site 0 * Site 0 * Site 0) + Num (2#1) / (Site 0 * Site 0 * Site 0) + Num (1#1) / (Site 0 * Site 0 * Site 0);
    Num (-6#1) * (Var 25 + Var 26 / Num (2#1)) / (Site 0 * Site 0 * Site 0 * Site 0) + Num (2#1) / (Site 0 * Site 0 * Site 0) + Num (1#1) / (Site 0 * Site 0 * Site 0);
    Num (-6#1) * (Var 25 + Var 26 / Num (2#1)) / (Site 0 * Site 0 * Site 0 * Site 0) + Num (2#1) / (Site 0 * Site 0 * Site 0) + Num (1#1) / (Site 0 * Site 0 * Site 0);
    Num (-6#1) * (Var 25 + Var 26 / Num (2#1)) / (Site 0 * Site 0 * Site 0 * Site 0) + Num (2#1) / (Site 0 * Site 0 * Site 0) + Num (2#1) / (Site 0 * Site 0 * Site 0) + Num (1#1) / (Site 0 * Site 0 * Site 0);
    Num (-6#1) * (Var 25 + Var 26 / Num (2#1)) / (Site 0 * Site 0 * Site 0 * Site 0) + Num (2#1) / (Site 0 * Site 0 * Site 0) + Num (1#1) / (Site 0 * Site 0 * Site 0) + Num (1#1) / (Site 0 * Site 0 * Site 0)]];
    [[Num (-6#1) * (Var 25 + Var 26 / Num (2#1)) / (Site 0 * Site 0 * Site 0 * Site 0) + Num (1#1) / (Site 0 * Site 0 * Site 0);
    Num (-6#1) * (Var 25 + Var 26 / Num (2#1)) / (Site 0 * Site 0 * Site 0 * Site 0) + Num (1#1) / (Site 0 * Site 0 * Site 0);
    Num (-6#1) * (Var 25 + Var 26 / Num (2#1)) / (Site 0 * Site 0 * Site 0 * Site 0) + Num (1#1) / (Site 0 * Site 0 * Site 0);
    Num (-6#1) * (Var 25 + Var 26 / Num (2#1)) / (Site 0 * Site 0 * Site 0 * Site 0) + Num (1#1) / (Site 0 * Site 0 * Site 0);
    Num (-6#1) * (Var 25 + Var 26 / Num (2#1)) / (Site 0 * Site 0 * Site 0 * Site 0) + Num (1#1) / (Site 0 * Site 0 * Site 0);
    Num (-6#1) * (Var 25 + Var 26 / Num (2#1)) / (Site 0 * Site 0 * Site 0 * Site 0) + Num (2#1) / (Site 0 * Site 0 * Site 0) + Num (1#1) / (Site 0 * Site 0 * Site 0);
    Num (-6#1) * (Var 25 + Var 26 / Num (2#1)) / (Site 0 * Site 0 * Site 0 * Site 0) + Num (1#1) / (Site 0 * Site 0 * Site 0) + Num (1#1) / (Site 0 * Site 0 * Site 0)];
    [Num (-6#1) * (Var 25 + Var 26 / Num (2#1)) / (Site 0 * Site 0 * Site 0 * Site 0) + Num (1#1) / (Site 0 * Site 0 * Site 0);
    Num (-6#1) * (Var 25 + Var 26 / Num (2#1)) / (Site 0 * Site 0 * Site 0 * Site 0) + Num (1#1) / (Site 0 * Site 0 * Site 0);
    Num (-6#1) * (Var 25 + Var 26 / Num (2#1)) / (Site 0 * Site 0 * Site 0 * Site 0) + Num (1#1) / (Site 0 * Site 0 * Site 0);
    Num (-6#1) * (Var 25 + Var 26 / Num (2#1)) / (Site 0 * Site 0 * Site 0 * Site 0) + Num (1#1) / (Site 0 * Site 0 * Site 0);
    Num (-6#1) * (Var 25 + Var 26 / Num (2#1)) / (Site 0 * Site 0 * Site 0 * Site 0) + Num (1#1) / (Site 0 * Site 0 * Site 0);
    Num (-6#1) * (Var 25 + Var 26 / Num (2#1)) / (Site 0 * Site 0 * Site 0 * Site 0) + Num (2#1) / (Site 0 * Site 0 * Site 0) + Num (1#1) / (Site 0 * Site 0 * Site 0);
    Num (-6#1) * (Var 25 + Var 26 / Num (2#1)) / (Site 0 * Site 0 * Site 0 * Site 0) + Num (1#1) / (Site 0 * Site 0 * Site 0) + Num (1#1) / (Site 0 * Site 0 * Site 0)];
    [Num (-6#1) * (Var 25 + Var 26 / Num (2#1)) / (Site 0 * Site 0 * Site 0 * Site 0) + Num (1#1) / (Site 0 * Site 0 * Site 0);
    Num (-6#1) * (Var 25 + Var 26 / Num (2#1)) / (Site 0 * Site 0 * Site 0 * Site 0) + Num (1#1) / (Site 0 * Site 0 * Site 0);
    Num (-6#1) * (Var 25 + Var 26 / Num (2#1)) / (Site 0 * Site 0 * Site 0 * Site 0) + Num (1#1) / (Site 0 * Site 0 * Site 0);
    Num (-6#1) * (Var 25 + Var 26 / Num (2#1)) / (Site 0 * Site 0 * Site 0 * Site 0) + Num (1#1) / (Site 0 * Site 0 * Site 0);
    Num (-6#1) * (Var 25 + Var 26 / Num (2#1)) / (Site 0 * Site 0 * Site 0 * Site 0) + Num (1#1) / (Site 0 * Site 0 * Site 0);
    Num (-6#1) * (Var 25 + Var 26 / Num (2#1)) / (Site 0 * Site 0 * Site 0 * Site 0) + Num (2#1) / (Site 0 * Site 0 * Site 0) + Num (1#1) / (Site 0 * Site 0 * Site 0);
    Num (-6#1) * (Var 25 + Var 26 / Num (2#1)) / (Site 0 * Site 0 * Site 0 * Site 0) + Num (1#1) / (Site 0 * Site 0 * Site 0) + Num (1#1) / (Site 0 * Site 0 * Site 0)];
    [Num (-6#1) * (Var 25 + Var 26 / Num (2#1)) / (Site 0 * Site 0 * Site 0 * Site 0) + Num (1#1) / (Site 0 * Site 0 * Site 0);
    Num (-6#1) * (Var 25 + Var 26 / Num (2#1)) / (Site 0 * Site 0 * Site 0 * Site 0) + Num (1#1) / (Site 0 * Site 0 * Site 0);
    Num (-6#1) * (Var 25 + Var 26 / Num (2#1)) / (Site 0 * Site 0 * Site 0 * Site 0) + Num (1#1) / (Site 0 * Site 0 * Site 0);
    Num (-6#1) * (Var 25 + Var 26 / Num (2#1)) / (Site 0 * Site 0 * Site 0 * Site 0) + Num (1#1) / (Site 0 * Site 0 * Site 0);
    Num (-6#1) * (Var 25 + Var 26 / Num (2#1)) / (Site 0 * Site 0 * Site 0 * Site 0) + Num (1#1) / (Site 0 * Site 0 * Site 0);
    Num (-6#1) * (Var 25 + Var 26 / Num (2#1)) / (Site 0 * Site 0 * Site 0 * Site 0) + Num (2#1) / (Site 0 * Site 0 * Site 0) + Num (1#1) / (Site 0 * Site 0 * Site 0);
    Num (-6#1) * (Var 25 + Var 26 / Num (2#1)) / (Site 0 * Site 0 * Site 0 * Site 0) + Num (1#1) / (Site 0 * Site 0 * Site 0) + Num (1#1) / (Site 0 * Site 0 * Site 0)];
    [Num (-6#1) * (Var 25 + Var 26 / Num (2#1)) / (Site 0 * Site 0 * Site 0 * Site 0) + Num (1#1) / (Site 0 * Site 0 * Site 0);
    Num (-6#1) * (Var 25 + Var 26 / Num (2#1)) / (Site 0 * Site 0 * Site 0 * Site 0) + Num (1#1) / (Site 0 * Site 0 * Site 0);
    Num (-6#1) * (Var 25 + Var 26 / Num (2#1)) / (Site 0 * Site 0 * Site 0 * Site 0) + Num (1#1) / (Site 0 * Site 0 * Site 0);
    Num (-6#1) * (Var 25 + Var 26 / Num (2#1)) / (Site 0 * Site 0 * Site 0 * Site 0) + Num (1#1) / (Site 0 * Site 0 * Site 0);
    Num (-6#1) * (Var 25 + Var 26 / Num (2#1)) / (Site 0 * Site 0 * Site 0 * Site 0) + Num (1#1) / (Site 0 * Site 0 * Site 0);
    Num (-6#1) * (Var 25 + Var 26 / Num (2#1)) / (Site 0 * Site 0 * Site 0 * Site 0) + Num (2#1) / (Site 0 * Site 0 * Site 0) + Num (1#1) / (Site 0 * Site 0 * Site 0);
    Num (-6#1) * (Var 25 + Var 26 / Num (2#1)) / (Site 0 * Site 0 * Site 0 * Site 0) + Num (1#1) / (Site 0 * Site 0 * Site 0) + Num (1#1) / (Site 0 * Site 0 * Site 0)];
    [Num (-6#1) * (Var 25 + Var 26 / Num (2#1)) / (Site 0 * Site 0 * Site 0 * Site 0) + Num (2#1) / (Site 0 * Site 0 * Site 0) + Num (1#1) / (Site 0 * Site 0 * Site 0);
    Num (-6#1) * (Var 25 + Var 26 / Num (2#1)) / (Site 0 * Site 0 * Site 0 * Site 0) + Num (2#1) / (Site 0 * Site 0 * Site 0) + Num (1#1) / (Site 0 * Site 0 * Site 0);
    Num (-6#1) * (Var 25 + Var 26 / Num (2#1)) / (Site 0 * Site 0 * Site 0 * Site 0) + Num (2#1) / (Site 0 * Site 0 * Site 0) + Num (1#1) / (Site 0 * Site 0 * Site 0);
    Num (-6#1) * (Var 25 + Var 26 / Num (2#1)) / (Site 0 * Site 0 * Site 0 * Site 0) + Num (2#1) / (Site 0 * Site 0 * Site 0) + Num (1#1) / (Site 0 * Site 0 * Site 0);
    Num (-6#1) * (Var 25 + Var 26 / Num (2#1)) / (Site 0 * Site 0 * Site 0 * Site 0) + Num (2#1) / (Site 0 * Site 0 * Site 0) + Num (1#1) / (Site 0 * Site 0 * Site 0);
    Num (-6#1) * (Var 25 + Var 26 / Num (2#1)) / (Site 0 * Site 0 * Site 0 * Site 0) + Num (2#1) / (Site 0 * Site 0 * Site 0) + Num (2#1) / (Site 0 * Site 0 * Site 0) + Num (1#1) / (Site 0 * Site 0 * Site 0);
    Num (-6#1) * (Var 25 + Var 26 / Num (2#1)) / (Site 0 * Site 0 * Site 0 * Site 0) + Num (2#1) / (Site 0 * Site 0 * Site 0) + Num (1#1) / (Site 0 * Site 0 * Site 0) + Num (1#1) / (Site 0 * Site 0 * Site 0)];
    [Num (-6#1) * (Var 25 + Var 26 / Num (2#1)) / (Site 0 * Site 0 * Site 0 * Site 0) + Num (1#1) / (Site 0 * Site 0 * Site 0) + Num (1#1) / (Site 0 * Site 0 * Site 0);
    Num (-6#1) * (Var 25 + Var 26 / Num (2#1)) / (Site 0 * Site 0 * Site 0 * Site 0) + Num (1#1) / (Site 0 * Site 0 * Site 0) + Num (1#1) / (Site 0 * Site 0 * Site 0);
    Num (-6#1) * (Var 25 + Var 26 / Num (2#1)) / (Site 0 * Site 0 * Site 0 * Site 0) + Num (1#1) / (Site 0 * Site 0 * Site 0) + Num (1#1) / (Site 0 * Site 0 * Site 0);
    Num (-6#1) * (Var 25 + Var 26 / Num (2#1)) / (Site 0 * Site 0 * Site 0 * Site 0) + Num (1#1) / (Site 0 * Site 0 * Site 0) + Num (1#1) / (Site 0 * Site 0 * Site 0);
    Num (-6#1) * (Var 25 + Var 26 / Num (2#1)) / (Site 0 * Site 0 * Site 0 * Site 0) + Num (1#1) / (Site 0 * Site 0 * Site 0) + Num (1#1) / (Site 0 * Site 0 * Site 0);
    Num (-6#1) * (Var 25 + Var 26 / Num (2#1)) / (Site 0 * Site 0 * Site 0 * Site 0) + Num (2#1) / (Site 0 * Site 0 * Site 0) + Num (1#1) / (Site 0 * Site 0 * Site 0) + Num (1#1) / (Site 0 * Site 0 * Site 0);
    Num (-6#1) * (Var 25 + Var 26 / Num (2#1)) / (Site 0 * Site 0 * Site 0 * Site 0) + Num (1#1) / (Site 0 * Site 0 * Site 0) + Num (1#1) / (Site 0 * Site 0 * Site 0) + Num (1#1) / (Site 0 * Site 0 * Site 0)]]];
    [[[Num (-6#1) * Var 26 / (Site 0 * Site 0 * Site 0 * Site 0);
    Num (-6#1) * Var 26 / (Site 0 * Site 0 * Site 0 * Site 0);
    Num (-6#1) * Var 26 / (Site 0 * Site 0 * Site 0 * Site 0);
    Num (-6#1) * Var 26 / (Site 0 * Site 0 * Site 0 * Site 0);
    Num (-6#1) * Var 26 / (Site 0 * Site 0 * Site 0 * Site 0);
    Num (-6#1) * Var 26 / (Site 0 * Site 0 * Site 0 * Site 0);
    Num (-6#1) * Var 26 / (Site 0 * Site 0 * Site 0 * Site 0) + Num (2#1) / (Site 0 * Site 0 * Site 0)];
    [Num (-6#1) * Var 26 / (Site 0 * Site 0 * Site 0 * Site 0);
    Num (-6#1) * Var 26 / (Site 0 * Site 0 * Site 0 * Site 0);
    Num (-6#1) * Var 26 / (Site 0 * Site 0 * Site 0 * Site 0);
    Num (-6#1) * Var 26 / (Site 0 * Site 0 * Site 0 * Site 0);
    Num (-6#1) * Var 26 / (Site 0 * Site 0 * Site 0 * Site 0);
    Num (-6#1) * Var 26 / (Site 0 * Site 0 * Site 0 * Site 0);
    Num (-6#1) * Var 26 / (Site 0 * Site 0 * Site 0 * Site 0) + Num (2#1) / (Site 0 * Site 0 * Site 0)];
    [Num (-6#1) * Var 26 / (Site 0 * Site 0 * Site 0 * Site 0);
    Num (-6#1) * Var 26 / (Site 0 * Site 0 * Site 0 * Site 0);
    Num (-6#1) * Var 26 / (Site 0 * Site 0 * Site 0 * Site 0);
    Num (-6#1) * Var 26 / (Site 0 * Site 0 * Site 0 * Site 0);
    Num (-6#1) * Var 26 / (Site 0 * Site 0 * Site 0 * Site 0);
    Num (-6#1) * Var 26 / (Site 0 * Site 0 * Site 0 * Site 0);
    Num (-6#1) * Var 26 / (Site 0 * Site 0 * Site 0 * Site 0) + Num (2#1) / (Site 0 * Site 0 * Site 0)];
    [Num (-6#1) * Var 26 / (Site 0 * Site 0 * Site 0 * Site 0);
    Num (-6#1) * Var 26 / (Site 0 * Site 0 * Site 0 * Site 0);
    Num (-6#1) * Var 26 / (Site 0 * Site 0 * Site 0 * Site 0);
    Num (-6#1) * Var 26 / (Site 0 * Site 0 * Site 0 * Site 0);
    Num (-6#1) * Var 26 / (Site 0 * Site 0 * Site 0 * Site 0);
    Num (-6#1) * Var 26 / (Site 0 * Site 0 * Site 0 * Site 0);
    Num (-6#1) * Var 26 / (Site 0 * Site 0 * Site 0 * Site 0) + Num (2#1) / (Site 0 * Site 0 * Site 0)];
    [Num (-6#1) * Var 26 / (Site 0 * Site 0 * Site 0 * Site 0);
    Num (-6#1) * Var 26 / (Site 0 * Site 0 * Site 0 * Site 0);
    Num (-6#1) * Var 26 / (Site 0 * Site 0 * Site 0 * Site 0);
    Num (-6#1) * Var 26 / (Site 0 * Site 0 * Site 0 * Site 0);
    Num (-6#1) * Var 26 / (Site 0 * Site 0 * Site 0 * Site 0);
    Num (-6#1) * Var 26 / (Site 0 * Site 0 * Site 0 * Site 0);
    Num (-6#1) * Var 26 / (Site 0 * Site 0 * Site 0 * Site 0) + Num (2#1) / (Site 0 * Site 0 * Site 0)];
    [Num (-6#1) * Var 26 / (Site 0 * Site 0 * Site 0 * Site 0);
    Num (-6#1) * Var 26 / (Site 0 * Site 0 * Site 0 * Site 0);
    Num (-6#1) * Var 26 / (Site 0 * Site 0 * Site 0 * Site 0);
    Num (-6#1) * Var 26 / (Site 0 * Site 0 * Site 0 * Site 0);
    Num (-6#1) * Var 26 / (Site 0 * Site 0 * Site 0 * Site 0);
    Num (-6#1) * Var 26 / (Site 0 * Site 0 * Site 0 * Site 0);
    Num (-6#1) * Var 26 / (Site 0 * Site 0 * Site 0 * Site 0) + Num (2#1) / (Site 0 * Site 0 * Site 0)];
    [Num (-6#1) * Var 26 / (Site 0 * Site 0 * Site 0 * Site 0) + Num (2#1) / (Site 0 * Site 0 * Site 0);
    Num (-6#1) * Var 26 / (Site 0 * Site 0 * Site 0 * Site 0) + Num (2#1) / (Site 0 * Site 0 * Site 0);
    Num (-6#1) * Var 26 / (Site 0 * Site 0 * Site 0 * Site 0) + Num (2#1) / (Site 0 * Site 0 * Site 0);
    Num (-6#1) * Var 26 / (Site 0 * Site 0 * Site 0 * Site 0) + Num (2#1) / (Site 0 * Site 0 * Site 0);
    Num (-6#1) * Var 26 / (Site 0 * Site 0 * Site 0 * Site 0) + Num (2#1) / (Site 0 * Site 0 * Site 0);
    Num (-6#1) * Var 26 / (Site 0 * Site 0 * Site 0 * Site 0) + Num (2#1) / (Site 0 * Site 0 * Site 0);
    Num (-6#1) * Var 26 / (Site 0 * Site 0 * Site 0 * Site 0) + Num (2#1) / (Site 0 * Site 0 * Site 0) + Num (2#1) / (Site 0 * Site 0 * Site 0)]];
    [[Num (-6#1) * Var 26 / (Site 0 * Site 0 * Site 0 * Site 0);
    Num (-6#1) * Var 26 / (Site 0 * Site 0 * Site 0 * Site 0);
    Num (-6#1) * Var 26 / (Site 0 * Site 0 * Site 0 * Site 0);
    Num (-6#1) * Var 26 / (Site 0 * Site 0 * Site 0 * Site 0);
    Num (-6#1) * Var 26 / (Site 0 * Site 0 * Site 0 * Site 0);
    Num (-6#1) * Var 26 / (Site 0 * Site 0 * Site 0 * Site 0);
    Num (-6#1) * Var 26 / (Site 0 * Site 0 * Site 0 * Site 0) + Num (2#1) / (Site 0 * Site 0 * Site 0)];
    [Num (-6#1) * Var 26 / (Site 0 * Site 0 * Site 0 * Site 0);
    Num (-6#1) * Var 26 / (Site 0 * Site 0 * Site 0 * Site 0);
    Num (-6#1) * Var 26 / (Site 0 * Site 0 * Site 0 * Site 0);
    Num (-6#1) * Var 26 / (Site 0 * Site 0 * Site 0 * Site 0);
    Num (-6#1) * Var 26 / (Site 0 * Site 0 * Site 0 * Site 0);
    Num (-6#1) * Var 26 / (Site 0 * Site 0 * Site 0 * Site 0);
    Num (-6#1) * Var 26 / (Site 0 * Site 0 * Site 0 * Site 0) + Num (2#1) / (Site 0 * Site 0 * Site 0)];
    [Num (-6#1) * Var 26 / (Site 0 * Site 0 * Site 0 * Site 0);
    Num (-6#1) * Var 26 / (Site 0 * Site 0 * Site 0 * Site 0);
    Num (-6#1) * Var 26 / (Site 0 * Site 0 * Site 0 * Site 0);
    Num (-6#1) * Var 26 / (Site 0 * Site 0 * Site 0 * Site 0);
    Num (-6#1) * Var 26 / (Site 0 * Site 0 * Site 0 * Site 0);
    Num (-6#1) * Var 26 / (Site 0 * Site 0 * Site 0 * Site 0);
    Num (-6#1) * Var 26 / (Site 0 * Site 0 * Site 0 * Site 0) + Num (2#1) / (Site 0 * Site 0 * Site 0)];
    [Num (-6#1) * Var 26 / (Site 0 * Site 0 * Site 0 * Site 0);
    Num (-6#1) * Var 26 / (Site 0 * Site 0 * Site 0 * Site 0);
    Num (-6#1) * Var 26 / (Site 0 * Site 0 * Site 0 * Site 0);
    Num (-6#1) * Var 26 / (Site 0 * Site 0 * Site 0 * Site 0);
    Num (-6#1) * Var 26 / (Site 0 * Site 0 * Site 0 * Site 0);
    Num (-6#1) * Var 26 / (Site 0 * Site 0 * Site 0 * Site 0);
    Num (-6#1) * Var 26 / (Site 0 * Site 0 * Site 0 * Site 0) + Num (2#1) / (Site 0 * Site 0 * Site 0)];
    [Num (-6#1) * Var 26 / (Site 0 * Site 0 * Site 0 * Site 0);
    Num (-6#1) * Var 26 / (Site 0 * Site 0 * Site 0 * Site 0);
    Num (-6#1) * Var 26 / (Site 0 * Site 0 * Site 0 * Site 0);
    Num (-6#1) * Var 26 / (Site 0 * Site 0 * Site 0 * Site 0);
    Num (-6#1) * Var 26 / (Site 0 * Site 0 * Site 0 * Site 0);
    Num (-6#1) * Var 26 / (Site 0 * Site 0 * Site 0 * Site 0);
    Num (-6#1) * Var 26 / (Site 0 * Site 0 * Site 0 * Site 0) + Num (2#1) / (Site 0 * Site 0 * Site 0)];
    [Num (-6#1) * Var 26 / (Site 0 * Site 0 * Site 0 * Site 0);
    Num (-6#1) * Var 26 / (Site 0 * Site 0 * Site 0 * Site 0);
    Num (-6#1) * Var 26 / (Site 0 * Site 0 * Site 0 * Site 0);
    Num (-6#1) * Var 26 / (Site 0 * Site 0 * Site 0 * Site 0);
    Num (-6#1) * Var 26 / (Site 0 * Site 0 * Site 0 * Site 0);
    Num (-6#1) * Var 26 / (Site 0 * Site 0 * Site 0 * Site 0);
    Num (-6#1) * Var 26 / (Site 0 * Site 0 * Site 0 * Site 0) + Num (2#1) / (Site 0 * Site 0 * Site 0)];
    [Num (-6#1) * Var 26 / (Site 0 * Site 0 * Site 0 * Site 0) + Num (2#1) / (Site 0 * Site 0 * Site 0);
    Num (-6#1) * Var 26 / (Site 0 * Site 0 * Site 0 * Site 0) + Num (2#1) / (Site 0 * Site 0 * Site 0);
    Num (-6#1) * Var 26 / (Site 0 * Site 0 * Site 0 * Site 0) + Num (2#1) / (Site 0 * Site 0 * Site 0);
    Num (-6#1) * Var 26 / (Site 0 * Site 0 * Site 0 * Site 0) + Num (2#1) / (Site 0 * Site 0 * Site 0);
    Num (-6#1) * Var 26 / (Site 0 * Site 0 * Site 0 * Site 0) + Num (2#1) / (Site 0 * Site 0 * Site 0);
    Num (-6#1) * Var 26 / (Site 0 * Site 0 * Site 0 * Site 0) + Num (2#1) / (Site 0 * Site 0 * Site 0);
    Num (-6#1) * Var 26 / (Site 0 * Site 0 * Site 0 * Site 0) + Num (2#1) / (Site 0 * Site 0 * Site 0) + Num (2#1) / (Site 0 * Site 0 * Site 0)]];
    [[Num (-6#1) * Var 26 / (Site 0 * Site 0 * Site 0 * Site 0);
    Num (-6#1) * Var 26 / (Site 0 * Site 0 * Site 0 * Site 0);
    Num (-6#1) * Var 26 / (Site 0 * Site 0 * Site 0 * Site 0);
    Num (-6#1) * Var 26 / (Site 0 * Site 0 * Site 0 * Site 0);
    Num (-6#1) * Var 26 / (Site 0 * Site 0 * Site 0 * Site 0);
    Num (-6#1) * Var 26 / (Site 0 * Site 0 * Site 0 * Site 0);
    Num (-6#1) * Var 26 / (Site 0 * Site 0 * Site 0 * Site 0) + Num (2#1) / (Site 0 * Site 0 * Site 0)];
    [Num (-6#1) * Var 26 / (Site 0 * Site 0 * Site 0 * Site 0);
    Num (-6#1) * Var 26 / (Site 0 * Site 0 * Site 0 * Site 0);
    Num (-6#1) * Var 26 / (Site 0 * Site 0 * Site 0 * Site 0);
    Num (-6#1) * Var 26 / (Site 0 * Site 0 * Site 0 * Site 0);
    Num (-6#1) * Var 26 / (Site 0 * Site 0 * Site 0 * Site 0);
    Num (-6#1) * Var 26 / (Site 0 * Site 0 * Site 0 * Site 0);
    Num (-6#1) * Var 26 / (Site 0 * Site 0 * Site 0 * Site 0) + Num (2#1) / (Site 0 * Site 0 * Site 0)];
    [Num (-6#1) * Var 26 / (Site 0 * Site 0 * Site 0 * Site 0);
    Num (-6#1) * Var 26 / (Site 0 * Site 0 * Site 0 * Site 0);
    Num (-6#1) * Var 26 / (Site 0 * Site 0 * Site 0 * Site 0);
    Num (-6#1) * Var 26 / (Site 0 * Site 0 * Site 0 * Site 0);
    Num (-6#1) * Var 26 / (Site 0 * Site 0 * Site 0 * Site 0);
    Num (-6#1) * Var 26 / (Site 0 * Site 0 * Site 0 * Site 0);
    Num (-6#1) * Var 26 / (Site 0 * Site 0 * Site 0 * Site 0) + Num (2#1) / (Site 0 * Site 0 * Site 0)];
    [Num (-6#1) * Var 26 / (Site 0 * Site 0 * Site 0 * Site 0);
    Num (-6#1) * Var 26 / (Site 0 * Site 0 * Site 0 * Site 0);
    Num (-6#1) * Var 26 / (Site 0 * Site 0 * Site 0 * Site 0);
    Num (-6#1) * Var 26 / (Site 0 * Site 0 * Site 0 * Site 0);
    Num (-6#1) * Var 26 / (Site 0 * Site 0 * Site 0 * Site 0);
    Num (-6#1) * Var 26 / (Site 0 * Site 0 * Site 0 * Site 0);
    Num (-6#1) * Var 26 / (Site 0 * Site 0 * Site 0 * Site 0) + Num (2#1) / (Site 0 * Site 0 * Site 0)];
    [Num (-6#1) * Var 26 / (Site 0 * Site 0 * Site 0 * Site 0);
    Num (-6#1) * Var 26 / (Site 0 * Site 0 * Site 0 * Site 0);
    Num (-6#1) * Var 26 / (Site 0 * Site 0 * Site 0 * Site 0);
    Num (-6#1) * Var 26 / (Site 0 * Site 0 * Site 0 * Site 0);
    Num (-6#1) * Var 26 / (Site 0 * Site 0 * Site 0 * Site 0);
    Num (-6#1) * Var 26 / (Site 0 * Site 0 * Site 0 * Site 0);
    Num (-6#1) * Var 26 / (Site 0 * Site 0 * Site 0 * Site 0) + Num (2#1) / (Site 0 * Site 0 * Site 0)];
    [Num (-6#1) * Var 26 / (Site 0 * Site 0 * Site 0 * Site 0);
    Num (-6#1) * Var 26 / (Site 0 * Site 0 * Site 0 * Site 0);
    Num (-6#1) * Var 26 / (Site 0 * Site 0 * Site 0 * Site 0);
    Num (-6#1) * Var 26 / (Site 0 * Site 0 * Site 0 * Site 0);
    Num (-6#1) * Var 26 / (Site 0 * Site 0 * Site 0 * Site 0);
    Num (-6#1) * Var 26 / (Site 0 * Site 0 * Site 0 * Site 0);
    Num (-6#1) * Var 26 / (Site 0 * Site 0 * Site 0 * Site 0) + Num (2#1) / (Site 0 * Site 0 * Site 0)];
    [Num (-6#1) * Var 26 / (Site 0 * Site 0 * Site 0 * Site 0) + Num (2#1) / (Site 0 * Site 0 * Site 0);
    Num (-6#1) * Var 26 / (Site 0 * Site 0 * Site 0 * Site 0) + Num (2#1) / (Site 0 * Site 0 * Site 0);
    Num (-6#1) * Var 26 / (Site 0 * Site 0 * Site 0 * Site 0) + Num (2#1) / (Site 0 * Site 0 * Site 0);
    Num (-6#1) * Var 26 / (Site 0 * Site 0 * Site 0 * Site 0) + Num (2#1) / (Site 0 * Site 0 * Site 0);
    Num (-6#1) * Var 26 / (Site 0 * Site 0 * Site 0 * Site 0) + Num (2#1) / (Site 0 * Site 0 * Site 0);
    Num (-6#1) * Var 26 / (Site 0 * Site 0 * Site 0 * Site 0) + Num (2#1) / (Site 0 * Site 0 * Site 0);
    Num (-6#1) * Var 26 / (Site 0 * Site 0 * Site 0 * Site 0) + Num (2#1) / (Site 0 * Site 0 * Site 0) + Num (2#1) / (Site 0 * Site 0 * Site 0)]];
    [[Num (-6#1) * Var 26 / (Site 0 * Site 0 * Site 0 * Site 0);
    Num (-6#1) * Var 26 / (Site 0 * Site 0 * Site 0 * Site 0);
    Num (-6#1) * Var 26 / (Site 0 * Site 0 * Site 0 * Site 0);
    Num (-6#1) * Var 26 / (Site 0 * Site 0 * Site 0 * Site 0);
    Num (-6#1) * Var 26 / (Site 0 * Site 0 * Site 0 * Site 0);
    Num (-6#1) * Var 26 / (Site 0 * Site 0 * Site 0 * Site 0);
    Num (-6#1) * Var 26 / (Site 0 * Site 0 * Site 0 * Site 0) + Num (2#1) / (Site 0 * Site 0 * Site 0)];
    [Num (-6#1) * Var 26 / (Site 0 * Site 0 * Site 0 * Site 0);
    Num (-6#1) * Var 26 / (Site 0 * Site 0 * Site 0 * Site 0);
    Num (-6#1) * Var 26 / (Site 0 * Site 0 * Site 0 * Site 0);
    Num (-6#1) * Var 26 / (Site 0 * Site 0 * Site 0 * Site 0);
    Num (-6#1) * Var 26 / (Site 0 * Site 0 * Site 0 * Site 0);
    Num (-6#1) * Var 26 / (Site 0 * Site 0 * Site 0 * Site 0);
    Num (-6#1) * Var 26 / (Site 0 * Site 0 * Site 0 * Site 0) + Num (2#1) / (Site 0 * Site 0 * Site 0)];
    [Num (-6#1) * Var 26 / (Site 0 * Site 0 * Site 0 * Site 0);
    Num (-6#1) * Var 26 / (Site 0 * Site 0 * Site 0 * Site 0);
    Num (-6#1) * Var 26 / (Site 0 * Site 0 * Site 0 * Site 0);
    Num (-6#1) * Var 26 / (Site 0 * Site 0 * Site 0 * Site 0);
    Num (-6#1) * Var 26 / (Site 0 * Site 0 * Site 0 * Site 0);
    Num (-6#1) * Var 26 / (Site 0 * Site 0 * Site 0 * Site 0);
    Num (-6#1) * Var 26 / (Site 0 * Site 0 * Site 0 * Site 0) + Num (2#1) / (Site 0 * Site 0 * Site 0)];
    [Num (-6#1) * Var 26 / (Site 0 * Site 0 * Site 0 * Site 0);
    Num (-6#1) * Var 26 / (Site 0 * Site 0 * Site 0 * Site 0);
    Num (-6#1) * Var 26 / (Site 0 * Site 0 * Site 0 * Site 0);
    Num (-6#1) * Var 26 / (Site 0 * Site 0 * Site 0 * Site 0);
    Num (-6#1) * Var 26 / (Site 0 * Site 0 * Site 0 * Site 0);
    Num (-6#1) * Var 26 / (Site 0 * Site 0 * Site 0 * Site 0);
    Num (-6#1) * Var 26 / (Site 0 * Site 0 * Site 0 * Site 0) + Num (2#1) / (Site 0 * Site 0 * Site 0)];
    [Num (-6#1) * Var 26 / (Site 0 * Site 0 * Site 0 * Site 0);
    Num (-6#1) * Var 26 / (Site 0 * Site 0 * Site 0 * Site 0);
    Num (-6#1) * Var 26 / (Site 0 * Site 0 * Site 0 * Site 0);
    Num (-6#1) * Var 26 / (Site 0 * Site 0 * Site 0 * Site 0);
    Num (-6#1) * Var 26 / (Site 0 * Site 0 * Site 0 * Site 0);
    Num (-6#1) * Var 26 / (Site 0 * Site 0 * Site 0 * Site 0);
    Num (-6#1) * Var 26 / (Site 0 * Site 0 * Site 0 * Site 0) + Num (2#1) / (Site 0 * Site 0 * Site 0)];
    [Num (-6#1) * Var 26 / (Site 0 * Site 0 * Site 0 * Site 0);
    Num (-6#1) * Var 26 / (Site 0 * Site 0 * Site 0 * Site 0);
    Num (-6#1) * Var 26 / (Site 0 * Site 0 * Site 0 * Site 0);
    Num (-6#1) * Var 26 / (Site 0 * Site 0 * Site 0 * Site 0);
    Num (-6#1) * Var 26 / (Site 0 * Site 0 * Site 0 * Site 0);
    Num (-6#1) * Var 26 / (Site 0 * Site 0 * Site 0 * Site 0);
    Num (-6#1) * Var 26 / (Site 0 * Site 0 * Site 0 * Site 0) + Num (2#1) / (Site 0 * Site 0 * Site 0)];
    [Num (-6#1) * Var 26 / (Site 0 * Site 0 * Site 0 * Site 0) + Num (2#1) / (Site 0 * Site 0 * Site 0);
    Num (-6#1) * Var 26 / (Site 0 * Site 0 * Site 0 * Site 0) + Num (2#1) / (Site 0 * Site 0 * Site 0);
    Num (-6#1) * Var 26 / (Site 0 * Site 0 * Site 0 * Site 0) + Num (2#1) / (Site 0 * Site 0 * Site 0);
    Num (-6#1) * Var 26 / (Site 0 * Site 0 * Site 0 * Site 0) + Num (2#1) / (Site 0 * Site 0 * Site 0);
    Num (-6#1) * Var 26 / (Site 0 * Site 0 * Site 0 * Site 0) + Num (2#1) / (Site 0 * Site 0 * Site 0);
    Num (-6#1) * Var 26 / (Site 0 * Site 0 * Site 0 * Site 0) + Num (2#1) / (Site 0 * Site 0 * Site 0);
    Num (-6#1) * Var 26 / (Site 0 * Site 0 * Site 0 * Site 0) + Num (2#1) / (Site 0 * Site 0 * Site 0) + Num (2#1) / (Site 0 * Site 0 * Site 0)]];
    [[Num (-6#1) * Var 26 / (Site 0 * Site 0 * Site 0 * Site 0);
    Num (-6#1) * Var 26 / (Site 0 * Site 0 * Site 0 * Site 0);
    Num (-6#1) * Var 26 / (Site 0 * Site 0 * Site 0 * Site 0);
    Num (-6#1) * Var 26 / (Site 0 * Site 0 * Site 0 * Site 0);
    Num (-6#1) * Var 26 / (Site 0 * Site 0 * Site 0 * Site 0);
    Num (-6#1) * Var 26 / (Site 0 * Site 0 * Site 0 * Site 0);
    Num (-6#1) * Var 26 / (Site 0 * Site 0 * Site 0 * Site 0) + Num (2#1) / (Site 0 * Site 0 * Site 0)];
    [Num (-6#1) * Var 26 / (Site 0 * Site 0 * Site 0 * Site 0);
    Num (-6#1) * Var 26 / (Site 0 * Site 0 * Site 0 * Site 0);
    Num (-6#1) * Var 26 / (Site 0 * Site 0 * Site 0 * Site 0);
    Num (-6#1) * Var 26 / (Site 0 * Site 0 * Site 0 * Site 0);
    Num (-6#1) * Var 26 / (Site 0 * Site 0 * Site 0 * Site 0);
    Num (-6#1) * Var 26 / (Site 0 * Site 0 * Site 0 * Site 0);
    Num (-6#1) * Var 26 / (Site 0 * Site 0 * Site 0 * Site 0) + Num (2#1) / (Site 0 * Site 0 * Site 0)];
    [Num (-6#1) * Var 26 / (Site 0 * Site 0 * Site 0 * Site 0);
    Num (-6#1) * Var 26 / (Site 0 * Site 0 * Site 0 * Site 0);
    Num (-6#1) * Var 26 / (Site 0 * Site 0 * Site 0 * Site 0);
    Num (-6#1) * Var 26 / (Site 0 * Site 0 * Site 0 * Site 0);
    Num (-6#1) * Var 26 / (Site 0 * Site 0 * Site 0 * Site 0);
    Num (-6#1) * Var 26 / (Site 0 * Site 0 * Site 0 * Site 0);
    Num (-6#1) * Var 26 / (Site 0 * Site 0 * Site 0 * Site 0) + Num (2#1) / (Site 0 * Site 0 * Site 0)];
    [Num (-6#1) * Var 26 / (Site 0 * Site 0 * Site 0 * Site 0);
    Num (-6#1) * Var 26 / (Site 0 * Site 0 * Site 0 * Site 0);
    Num (-6#1) * Var 26 / (Site 0 * Site 0 * Site 0 * Site 0);
    Num (-6#1) * Var 26 / (Site 0 * Site 0 * Site 0 * Site 0);
    Num (-6#1) * Var 26 / (Site 0 * Site 0 * Site 0 * Site 0);
    Num (-6#1) * Var 26 / (Site 0 * Site 0 * Site 0 * Site 0);
    Num (-6#1) * Var 26 / (Site 0 * Site 0 * Site 0 * Site 0) + Num (2#1) / (Site 0 * Site 0 * Site 0)];
    [Num (-6#1) * Var 26 / (Site 0 * Site 0 * Site 0 * Site 0);
    Num (-6#1) * Var 26 / (Site 0 * Site 0 * Site 0 * Site 0);
    Num (-6#1) * Var 26 / (Site 0 * Site 0 * Site 0 * Site 0);
    Num (-6#1) * Var 26 / (Site 0 * Site 0 * Site 0 * Site 0);
    Num (-6#1) * Var 26 / (Site 0 * Site 0 * Site 0 * Site 0);
    Num (-6#1) * Var 26 / (Site 0 * Site 0 * Site 0 * Site 0);
    Num (-6#1) * Var 26 / (Site 0 * Site 0 * Site 0 * Site 0) + Num (2#1) / (Site 0 * Site 0 * Site 0)];
    [Num (-6#1) * Var 26 / (Site 0 * Site 0 * Site 0 * Site 0);
    Num (-6#1) * Var 26 / (Site 0 * Site 0 * Site 0 * Site 0);
    Num (-6#1) * Var 26 / (Site 0 * Site 0 * Site 0 * Site 0);
    Num (-6#1) * Var 26 / (Site 0 * Site 0 * Site 0 * Site 0);
    Num (-6#1) * Var 26 / (Site 0 * Site 0 * Site 0 * Site 0);
    Num (-6#1) * Var 26 / (Site 0 * Site 0 * Site 0 * Site 0);
    Num (-6#1) * Var 26 / (Site 0 * Site 0 * Site 0 * Site 0) + Num (2#1) / (Site 0 * Site 0 * Site 0)];
    [Num (-6#1) * Var 26 / (Site 0 * Site 0 * Site 0 * Site 0) + Num (2#1) / (Site 0 * Site 0 * Site 0);
    Num (-6#1) * Var 26 / (Site 0 * Site 0 * Site 0 * Site 0) + Num (2#1) / (Site 0 * Site 0 * Site 0);
    Num (-6#1) * Var 26 / (Site 0 * Site 0 * Site 0 * Site 0) + Num (2#1) / (Site 0 * Site 0 * Site 0);
    Num (-6#1) * Var 26 / (Site 0 * Site 0 * Site 0 * Site 0) + Num (2#1) / (Site 0 * Site 0 * Site 0);
    Num (-6#1) * Var 26 / (Site 0 * Site 0 * Site 0 * Site 0) + Num (2#1) / (Site 0 * Site 0 * Site 0);
    Num (-6#1) * Var 26 / (Site 0 * Site 0 * Site 0 * Site 0) + Num (2#1) / (Site 0 * Site 0 * Site 0);
    Num (-6#1) * Var 26 / (Site 0 * Site 0 * Site 0 * Site 0) + Num (2#1) / (Site 0 * Site 0 * Site 0) + Num (2#1) / (Site 0 * Site 0 * Site 0)]];
    [[Num (-6#1) * Var 26 / (Site 0 * Site 0 * Site 0 * Site 0);
    Num (-6#1) * Var 26 / (Site 0 * Site 0 * Site 0 * Site 0);
    Num (-6#1) * Var 26 / (Site 0 * Site 0 * Site 0 * Site 0);
    Num (-6#1) * Var 26 / (Site 0 * Site 0 * Site 0 * Site 0);
    Num (-6#1) * Var 26 / (Site 0 * Site 0 * Site 0 * Site 0);
    Num (-6#1) * Var 26 / (Site 0 * Site 0 * Site 0 * Site 0);
    Num (-6#1) * Var 26 / (Site 0 * Site 0 * Site 0 * Site 0) + Num (2#1) / (Site 0 * Site 0 * Site 0)];
    [Num (-6#1) * Var 26 / (Site 0 * Site 0 * Site 0 * Site 0);
    Num (-6#1) * Var 26 / (Site 0 * Site 0 * Site 0 * Site 0);
    Num (-6#1) * Var 26 / (Site 0 * Site 0 * Site 0 * Site 0);
    Num (-6#1) * Var 26 / (Site 0 * Site 0 * Site 0 * Site 0);
    Num (-6#1) * Var 26 / (Site 0 * Site 0 * Site 0 * Site 0);
    Num (-6#1) * Var 26 / (Site 0 * Site 0 * Site 0 * Site 0);
    Num (-6#1) * Var 26 / (Site 0 * Site 0 * Site 0 * Site 0) + Num (2#1) / (Site 0 * Site 0 * Site 0)];
    [Num (-6#1) * Var 26 / (Site 0 * Site 0 * Site 0 * Site 0);
    Num (-6#1) * Var 26 / (Site 0 * Site 0 * Site 0 * Site 0);
    Num (-6#1) * Var 26 / (Site 0 * Site 0 * Site 0 * Site 0);
    Num (-6#1) * Var 26 / (Site 0 * Site 0 * Site 0 * Site 0);
    Num (-6#1) * Var 26 / (Site 0 * Site 0 * Site 0 * Site 0);
    Num (-6#1) * Var 26 / (Site 0 * Site 0 * Site 0 * Site 0);
    Num (-6#1) * Var 26 / (Site 0 * Site 0 * Site 0 * Site 0) + Num (2#1) / (Site 0 * Site 0 * Site 0)];
    [Num (-6#1) * Var 26 / (Site 0 * Site 0 * Site 0 * Site 0);
    Num (-6#1) * Var 26 / (Site 0 * Site 0 * Site 0 * Site 0);
    Num (-6#1) * Var 26 / (Site 0 * Site 0 * Site 0 * Site 0);
    Num (-6#1) * Var 26 / (Site 0 * Site 0 * Site 0 * Site 0);
    Num (-6#1) * Var 26 / (Site 0 * Site 0 * Site 0 * Site 0);
    Num (-6#1) * Var 26 / (Site 0 * Site 0 * Site 0 * Site 0);
    Num (-6#1) * Var 26 / (Site 0 * Site 0 * Site 0 * Site 0) + Num (2#1) / (Site 0 * Site 0 * Site 0)];
    [Num (-6#1) * Var 26 / (Site 0 * Site 0 * Site 0 * Site 0);
    Num (-6#1) * Var 26 / (Site 0 * Site 0 * Site 0 * Site 0);
    Num (-6#1) * Var 26 / (Site 0 * Site 0 * Site 0 * Site 0);
    Num (-6#1) * Var 26 / (Site 0 * Site 0 * Site 0 * Site 0);
    Num (-6#1) * Var 26 / (Site 0 * Site 0 * Site 0 * Site 0);
    Num (-6#1) * Var 26 / (Site 0 * Site 0 * Site 0 * Site 0);
    Num (-6#1) * Var 26 / (Site 0 * Site 0 * Site 0 * Site 0) + Num (2#1) / (Site 0 * Site 0 * Site 0)];
    [Num (-6#1) * Var 26 / (Site 0 * Site 0 * Site 0 * Site 0);
    Num (-6#1) * Var 26 / (Site 0 * Site 0 * Site 0 * Site 0);
    Num (-6#1) * Var 26 / (Site 0 * Site 0 * Site 0 * Site 0);
    Num (-6#1) * Var 26 / (Site 0 * Site 0 * Site 0 * Site 0);
    Num (-6#1) * Var 26 / (Site 0 * Site 0 * Site 0 * Site 0);
    Num (-6#1) * Var 26 / (Site 0 * Site 0 * Site 0 * Site 0);
    Num (-6#1) * Var 26 / (Site 0 * Site 0 * Site 0 * Site 0) + Num (2#1) / (Site 0 * Site 0 * Site 0)];
    [Num (-6#1) * Var 26 / (Site 0 * Site 0 * Site 0 * Site 0) + Num (2#1) / (Site 0 * Site 0 * Site 0);
    Num (-6#1) * Var 26 / (Site 0 * Site 0 * Site 0 * Site 0) + Num (2#1) / (Site 0 * Site 0 * Site 0);
    Num (-6#1) * Var 26 / (Site 0 * Site 0 * Site 0 * Site 0) + Num (2#1) / (Site 0 * Site 0 * Site 0);
    Num (-6#1) * Var 26 / (Site 0 * Site 0 * Site 0 * Site 0) + Num (2#1) / (Site 0 * Site 0 * Site 0);
    Num (-6#1) * Var 26 / (Site 0 * Site 0 * Site 0 * Site 0) + Num (2#1) / (Site 0 * Site 0 * Site 0);
    Num (-6#1) * Var 26 / (Site 0 * Site 0 * Site 0 * Site 0) + Num (2#1) / (Site 0 * Site 0 * Site 0);
    Num (-6#1) * Var 26 / (Site 0 * Site 0 * Site 0 * Site 0) + Num (2#1) / (Site 0 * Site 0 * Site 0) + Num (2#1) / (Site 0 * Site 0 * Site 0)]];
    [[Num (-6#1) * Var 26 / (Site 0 * Site 0 * Site 0 * Site 0) + Num (2#1) / (Site 0 * Site 0 * Site 0);
    Num (-6#1) * Var 26 / (Site 0 * Site 0 * Site 0 * Site 0) + Num (2#1) / (Site 0 * Site 0 * Site 0);
    Num (-6#1) * Var 26 / (Site 0 * Site 0 * Site 0 * Site 0) + Num (2#1) / (Site 0 * Site 0 * Site 0);
    Num (-6#1) * Var 26 / (Site 0 * Site 0 * Site 0 * Site 0) + Num (2#1) / (Site 0 * Site 0 * Site 0);
    Num (-6#1) * Var 26 / (Site 0 * Site 0 * Site 0 * Site 0) + Num (2#1) / (Site 0 * Site 0 * Site 0);
    Num (-6#1) * Var 26 / (Site 0 * Site 0 * Site 0 * Site 0) + Num (2#1) / (Site 0 * Site 0 * Site 0);
    Num (-6#1) * Var 26 / (Site 0 * Site 0 * Site 0 * Site 0) + Num (2#1) / (Site 0 * Site 0 * Site 0) + Num (2#1) / (Site 0 * Site 0 * Site 0)];
    [Num (-6#1) * Var 26 / (Site 0 * Site 0 * Site 0 * Site 0) + Num (2#1) / (Site 0 * Site 0 * Site 0);
    Num (-6#1) * Var 26 / (Site 0 * Site 0 * Site 0 * Site 0) + Num (2#1) / (Site 0 * Site 0 * Site 0);
    Num (-6#1) * Var 26 / (Site 0 * Site 0 * Site 0 * Site 0) + Num (2#1) / (Site 0 * Site 0 * Site 0);
    Num (-6#1) * Var 26 / (Site 0 * Site 0 * Site 0 * Site 0) + Num (2#1) / (Site 0 * Site 0 * Site 0);
    Num (-6#1) * Var 26 / (Site 0 * Site 0 * Site 0 * Site 0) + Num (2#1) / (Site 0 * Site 0 * Site 0);
    Num (-6#1) * Var 26 / (Site 0 * Site 0 * Site 0 * Site 0) + Num (2#1) / (Site 0 * Site 0 * Site 0);
    Num (-6#1) * Var 26 / (Site 0 * Site 0 * Site 0 * Site 0) + Num (2#1) / (Site 0 * Site 0 * Site 0) + Num (2#1) / (Site 0 * Site 0 * Site 0)];
    [Num (-6#1) * Var 26 / (Site 0 * Site 0 * Site 0 * Site 0) + Num (2#1) / (Site 0 * Site 0 * Site 0);
    Num (-6#1) * Var 26 / (Site 0 * Site 0 * Site 0 * Site 0) + Num (2#1) / (Site 0 * Site 0 * Site 0);
    Num (-6#1) * Var 26 / (Site 0 * Site 0 * Site 0 * Site 0) + Num (2#1) / (Site 0 * Site 0 * Site 0);
    Num (-6#1) * Var 26 / (Site 0 * Site 0 * Site 0 * Site 0) + Num (2#1) / (Site 0 * Site 0 * Site 0);
    Num (-6#1) * Var 26 / (Site 0 * Site 0 * Site 0 * Site 0) + Num (2#1) / (Site 0 * Site 0 * Site 0);
    Num (-6#1) * Var 26 / (Site 0 * Site 0 * Site 0 * Site 0) + Num (2#1) / (Site 0 * Site 0 * Site 0);
    Num (-6#1) * Var 26 / (Site 0 * Site 0 * Site 0 * Site 0) + Num (2#1) / (Site 0 * Site 0 * Site 0) + Num (2#1) / (Site 0 * Site 0 * Site 0)];
    [Num (-6#1) * Var 26 / (Site 0 * Site 0 * Site 0 * Site 0) + Num (2#1) / (Site 0 * Site 0 * Site 0);
    Num (-6#1) * Var 26 / (Site 0 * Site 0 * Site 0 * Site 0) + Num (2#1) / (Site 0 * Site 0 * Site 0);
    Num (-6#1) * Var 26 / (Site 0 * Site 0 * Site 0 * Site 0) + Num (2#1) / (Site 0 * Site 0 * Site 0);
    Num (-6#1) * Var 26 / (Site 0 * Site 0 * Site 0 * Site 0) + Num (2#1) / (Site 0 * Site 0 * Site 0);
    Num (-6#1) * Var 26 / (Site 0 * Site 0 * Site 0 * Site 0) + Num (2#1) / (Site 0 * Site 0 * Site 0);
    Num (-6#1) * Var 26 / (Site 0 * Site 0 * Site 0 * Site 0) + Num (2#1) / (Site 0 * Site 0 * Site 0);
    Num (-6#1) * Var 26 / (Site 0 * Site 0 * Site 0 * Site 0) + Num (2#1) / (Site 0 * Site 0 * Site 0) + Num (2#1) / (Site 0 * Site 0 * Site 0)];
    [Num (-6#1) * Var 26 / (Site 0 * Site 0 * Site 0 * Site 0) + Num (2#1) / (Site 0 * Site 0 * Site 0);
    Num (-6#1) * Var 26 / (Site 0 * Site 0 * Site 0 * Site 0) + Num (2#1) / (Site 0 * Site 0 * Site 0);
    Num (-6#1) * Var 26 / (Site 0 * Site 0 * Site 0 * Site 0) + Num (2#1) / (Site 0 * Site 0 * Site 0);
    Num (-6#1) * Var 26 / (Site 0 * Site 0 * Site 0 * Site 0) + Num (2#1) / (Site 0 * Site 0 * Site 0);
    Num (-6#1) * Var 26 / (Site 0 * Site 0 * Site 0 * Site 0) + Num (2#1) / (Site 0 * Site 0 * Site 0);
    Num (-6#1) * Var 26 / (Site 0 * Site 0 * Site 0 * Site 0) + Num (2#1) / (Site 0 * Site 0 * Site 0);
    Num (-6#1) * Var 26 / (Site 0 * Site 0 * Site 0 * Site 0) + Num (2#1) / (Site 0 * Site 0 * Site 0) + Num (2#1) / (Site 0 * Site 0 * Site 0)];
    [Num (-6#1) * Var 26 / (Site 0 * Site 0 * Site 0 * Site 0) + Num (2#1) / (Site 0 * Site 0 * Site 0);
    Num (-6#1) * Var 26 / (Site 0 * Site 0 * Site 0 * Site 0) + Num (2#1) / (Site 0 * Site 0 * Site 0);
    Num (-6#1) * Var 26 / (Site 0 * Site 0 * Site 0 * Site 0) + Num (2#1) / (Site 0 * Site 0 * Site 0);
    Num (-6#1) * Var 26 / (Site 0 * Site 0 * Site 0 * Site 0) + Num (2#1) / (Site 0 * Site 0 * Site 0);
    Num (-6#1) * Var 26 / (Site 0 * Site 0 * Site 0 * Site 0) + Num (2#1) / (Site 0 * Site 0 * Site 0);
    Num (-6#1) * Var 26 / (Site 0 * Site 0 * Site 0 * Site 0) + Num (2#1) / (Site 0 * Site 0 * Site 0);
    Num (-6#1) * Var 26 / (Site 0 * Site 0 * Site 0 * Site 0) + Num (2#1) / (Site 0 * Site 0 * Site 0) + Num (2#1) / (Site 0 * Site 0 * Site 0)];
    [Num (-6#1) * Var 26 / (Site 0 * Site 0 * Site 0 * Site 0) + Num (2#1) / (Site 0 * Site 0 * Site 0) + Num (2#1) / (Site 0 * Site 0 * Site 0);
    Num (-6#1) * Var 26 / (Site 0 * Site 0 * Site 0 * Site 0) + Num (2#1) / (Site 0 * Site 0 * Site 0) + Num (2#1) / (Site 0 * Site 0 * Site 0);
    Num (-6#1) * Var 26 / (Site 0 * Site 0 * Site 0 * Site 0) + Num (2#1) / (Site 0 * Site 0 * Site 0) + Num (2#1) / (Site 0 * Site 0 * Site 0);
    Num (-6#1) * Var 26 / (Site 0 * Site 0 * Site 0 * Site 0) + Num (2#1) / (Site 0 * Site 0 * Site 0) + Num (2#1) / (Site 0 * Site 0 * Site 0);
    Num (-6#1) * Var 26 / (Site 0 * Site 0 * Site 0 * Site 0) + Num (2#1) / (Site 0 * Site 0 * Site 0) + Num (2#1) / (Site 0 * Site 0 * Site 0);
    Num (-6#1) * Var 26 / (Site 0 * Site 0 * Site 0 * Site 0) + Num (2#1) / (Site 0 * Site 0 * Site 0) + Num (2#1) / (Site 0 * Site 0 * Site 0);
    Num (-6#1) * Var 26 / (Site 0 * Site 0 * Site 0 * Site 0) + Num (2#1) / (Site 0 * Site 0 * Site 0) + Num (2#1) / (Site 0 * Site 0 * Site 0) + Num (2#1) / (Site 0 * Site 0 * Site 0)]]];
    [[[Num (-6#1) * Var 21 / (Site 0 * Site 0 * Site 0 * Site 0);
    Num (-6#1) * Var 21 / (Site 0 * Site 0 * Site 0 * Site 0) + Num (2#1) / (Site 0 * Site 0 * Site 0);
    Num (-6#1) * Var 21 / (Site 0 * Site 0 * Site 0 * Site 0);
    Num (-6#1) * Var 21 / (Site 0 * Site 0 * Site 0 * Site 0);
    Num (-6#1) * Var 21 / (Site 0 * Site 0 * Site 0 * Site 0);
    Num (-6#1) * Var 21 / (Site 0 * Site 0 * Site 0 * Site 0);
    Num (-6#1) * Var 21 / (Site 0 * Site 0 * Site 0 * Site 0)];
    [Num (-6#1) * Var 21 / (Site 0 * Site 0 * Site 0 * Site 0) + Num (2#1) / (Site 0 * Site 0 * Site 0);
    Num (-6#1) * Var 21 / (Site 0 * Site 0 * Site 0 * Site 0) + Num (2#1) / (Site 0 * Site 0 * Site 0) + Num (2#1) / (Site 0 * Site 0 * Site 0);
    Num (-6#1) * Var 21 / (Site 0 * Site 0 * Site 0 * Site 0) + Num (2#1) / (Site 0 * Site 0 * Site 0);
    Num (-6#1) * Var 21 / (Site 0 * Site 0 * Site 0 * Site 0) + Num (2#1) / (Site 0 * Site 0 * Site 0);
    Num (-6#1) * Var 21 / (Site 0 * Site 0 * Site 0 * Site 0) + Num (2#1) / (Site 0 * Site 0 * Site 0);
    Num (-6#1) * Var 21 / (Site 0 * Site 0 * Site 0 * Site 0) + Num (2#1) / (Site 0 * Site 0 * Site 0);
    Num (-6#1) * Var 21 / (Site 0 * Site 0 * Site 0 * Site 0) + Num (2#1) / (Site 0 * Site 0 * Site 0)];
    [Num (-6#1) * Var 21 / (Site 0 * Site 0 * Site 0 * Site 0);
    Num (-6#1) * Var 21 / (Site 0 * Site 0 * Site 0 * Site 0) + Num (2#1) / (Site 0 * Site 0 * Site 0);
    Num (-6#1) * Var 21 / (Site 0 * Site 0 * Site 0 * Site 0);
    Num (-6#1) * Var 21 / (Site 0 * Site 0 * Site 0 * Site 0);
    Num (-6#1) * Var 21 / (Site 0 * Site 0 * Site 0 * Site 0);
    Num (-6#1) * Var 21 / (Site 0 * Site 0 * Site 0 * Site 0);
    Num (-6#1) * Var 21 / (Site 0 * Site 0 * Site 0 * Site 0)];
    [Num (-6#1) * Var 21 / (Site 0 * Site 0 * Site 0 * Site 0);
    Num (-6#1) * Var 21 / (Site 0 * Site 0 * Site 0 * Site 0) + Num (2#1) / (Site 0 * Site 0 * Site 0);
    Num (-6#1) * Var 21 / (Site 0 * Site 0 * Site 0 * Site 0);
    Num (-6#1) * Var 21 / (Site 0 * Site 0 * Site 0 * Site 0);
    Num (-6#1) * Var 21 / (Site 0 * Site 0 * Site 0 * Site 0);
    Num (-6#1) * Var 21 / (Site 0 * Site 0 * Site 0 * Site 0);
    Num (-6#1) * Var 21 / (Site 0 * Site 0 * Site 0 * Site 0)];
    [Num (-6#1) * Var 21 / (Site 0 * Site 0 * Site 0 * Site 0);
    Num (-6#1) * Var 21 / (Site 0 * Site 0 * Site 0 * Site 0) + Num (2#1) / (Site 0 * Site 0 * Site 0);
    Num (-6#1) * Var 21 / (Site 0 * Site 0 * Site 0 * Site 0);
    Num (-6#1) * Var 21 / (Site 0 * Site 0 * Site 0 * Site 0);
    Num (-6#1) * Var 21 / (Site 0 * Site 0 * Site 0 * Site 0);
    Num (-6#1) * Var 21 / (Site 0 * Site 0 * Site 0 * Site 0);
    Num (-6#1) * Var 21 / (Site 0 * Site 0 * Site 0 * Site 0)];
    [Num (-6#1) * Var 21 / (Site 0 * Site 0 * Site 0 * Site 0);
    Num (-6#1) * Var 21 / (Site 0 * Site 0 * Site 0 * Site 0) + Num (2#1) / (Site 0 * Site 0 * Site 0);
    Num (-6#1) * Var 21 / (Site 0 * Site 0 * Site 0 * Site 0);
    Num (-6#1) * Var 21 / (Site 0 * Site 0 * Site 0 * Site 0);
    Num (-6#1) * Var 21 / (Site 0 * Site 0 * Site 0 * Site 0);
    Num (-6#1) * Var 21 / (Site 0 * Site 0 * Site 0 * Site 0);
    Num (-6#1) * Var 21 / (Site 0 * Site 0 * Site 0 * Site 0)];
    [Num (-6#1) * Var 21 / (Site 0 * Site 0 * Site 0 * Site 0);
    Num (-6#1) * Var 21 / (Site 0 * Site 0 * Site 0 * Site 0) + Num (2#1) / (Site 0 * Site 0 * Site 0);
    Num (-6#1) * Var 21 / (Site 0 * Site 0 * Site 0 * Site 0);
    Num (-6#1) * Var 21 / (Site 0 * Site 0 * Site 0 * Site 0);
    Num (-6#1) * Var 21 / (Site 0 * Site 0 * Site 0 * Site 0);
    Num (-6#1) * Var 21 / (Site 0 * Site 0 * Site 0 * Site 0);
    Num (-6#1) * Var 21 / (Site 0 * Site 0 * Site 0 * Site 0)]];
    [[Num (-6#1) * Var 21 / (Site 0 * Site 0 * Site 0 * Site 0) + Num (2#1) / (Site 0 * Site 0 * Site 0);
    Num (-6#1) * Var 21 / (Site 0 * Site 0 * Site 0 * Site 0) + Num (2#1) / (Site 0 * Site 0 * Site 0) + Num (2#1) / (Site 0 * Site 0 * Site 0);
    Num (-6#1) * Var 21 / (Site 0 * Site 0 * Site 0 * Site 0) + Num (2#1) / (Site 0 * Site 0 * Site 0);
    Num (-6#1) * Var 21 / (Site 0 * Site 0 * Site 0 * Site 0) + Num (2#1) / (Site 0 * Site 0 * Site 0);
    Num (-6#1) * Var 21 / (Site 0 * Site 0 * Site 0 * Site 0) + Num (2#1) / (Site 0 * Site 0 * Site 0);
    Num (-6#1) * Var 21 / (Site 0 * Site 0 * Site 0 * Site 0) + Num (2#1) / (Site 0 * Site 0 * Site 0);
    Num (-6#1) * Var 21 / (Site 0 * Site 0 * Site 0 * Site 0) + Num (2#1) / (Site 0 * Site 0 * Site 0)];
    [Num (-6#1) * Var 21 / (Site 0 * Site 0 * Site 0 * Site 0) + Num (2#1) / (Site 0 * Site 0 * Site 0) + Num (2#1) / (Site 0 * Site 0 * Site 0);
    Num (-6#1) * Var 21 / (Site 0 * Site 0 * Site 0 * Site 0) + Num (2#1) / (Site 0 * Site 0 * Site 0) + Num (2#1) / (Site 0 * Site 0 * Site 0) + Num (2#1) / (Site 0 * Site 0 * Site 0);
    Num (-6#1) * Var 21 / (Site 0 * Site 0 * Site 0 * Site 0) + Num (2#1) / (Site 0 * Site 0 * Site 0) + Num (2#1) / (Site 0 * Site 0 * Site 0);
    Num (-6#1) * Var 21 / (Site 0 * Site 0 * Site 0 * Site 0) + Num (2#1) / (Site 0 * Site 0 * Site 0) + Num (2#1) / (Site 0 * Site 0 * Site 0);
    Num (-6#1) * Var 21 / (Site 0 * Site 0 * Site 0 * Site 0) + Num (2#1) / (Site 0 * Site 0 * Site 0) + Num (2#1) / (Site 0 * Site 0 * Site 0);
    Num (-6#1) * Var 21 / (Site 0 * Site 0 * Site 0 * Site 0) + Num (2#1) / (Site 0 * Site 0 * Site 0) + Num (2#1) / (Site 0 * Site 0 * Site 0);
    Num (-6#1) * Var 21 / (Site 0 * Site 0 * Site 0 * Site 0) + Num (2#1) / (Site 0 * Site 0 * Site 0) + Num (2#1) / (Site 0 * Site 0 * Site 0)];
    [Num (-6#1) * Var 21 / (Site 0 * Site 0 * Site 0 * Site 0) + Num (2#1) / (Site 0 * Site 0 * Site 0);
    Num (-6#1) * Var 21 / (Site 0 * Site 0 * Site 0 * Site 0) + Num (2#1) / (Site 0 * Site 0 * Site 0) + Num (2#1) / (Site 0 * Site 0 * Site 0);
    Num (-6#1) * Var 21 / (Site 0 * Site 0 * Site 0 * Site 0) + Num (2#1) / (Site 0 * Site 0 * Site 0);
    Num (-6#1) * Var 21 / (Site 0 * Site 0 * Site 0 * Site 0) + Num (2#1) / (Site 0 * Site 0 * Site 0);
    Num (-6#1) * Var 21 / (Site 0 * Site 0 * Site 0 * Site 0) + Num (2#1) / (Site 0 * Site 0 * Site 0);
    Num (-6#1) * Var 21 / (Site 0 * Site 0 * Site 0 * Site 0) + Num (2#1) / (Site 0 * Site 0 * Site 0);
    Num (-6#1) * Var 21 / (Site 0 * Site 0 * Site 0 * Site 0) + Num (2#1) / (Site 0 * Site 0 * Site 0)];
    [Num (-6#1) * Var 21 / (Site 0 * Site 0 * Site 0 * Site 0) + Num (2#1) / (Site 0 * Site 0 * Site 0);
    Num (-6#1) * Var 21 / (Site 0 * Site 0 * Site 0 * Site 0) + Num (2#1) / (Site 0 * Site 0 * Site 0) + Num (2#1) / (Site 0 * Site 0 * Site 0);
    Num (-6#1) * Var 21 / (Site 0 * Site 0 * Site 0 * Site 0) + Num (2#1) / (Site 0 * Site 0 * Site 0);
    Num (-6#1) * Var 21 / (Site 0 * Site 0 * Site 0 * Site 0) + Num (2#1) / (Site 0 * Site 0 * Site 0);
    Num (-6#1) * Var 21 / (Site 0 * Site 0 * Site 0 * Site 0) + Num (2#1) / (Site 0 * Site 0 * Site 0);
    Num (-6#1) * Var 21 / (Site 0 * Site 0 * Site 0 * Site 0) + Num (2#1) / (Site 0 * Site 0 * Site 0);
    Num (-6#1) * Var 21 / (Site 0 * Site 0 * Site 0 * Site 0) + Num (2#1) / (Site 0 * Site 0 * Site 0)];
    [Num (-6#1) * Var 21 / (Site 0 * Site 0 * Site 0 * Site 0) + Num (2#1) / (Site 0 * Site 0 * Site 0);
    Num (-6#1) * Var 21 / (Site 0 * Site 0 * Site 0 * Site 0) + Num (2#1) / (Site 0 * Site 0 * Site 0) + Num (2#1) / (Site 0 * Site 0 * Site 0);
    Num (-6#1) * Var 21 / (Site 0 * Site 0 * Site 0 * Site 0) + Num (2#1) / (Site 0 * Site 0 * Site 0);
    Num (-6#1) * Var 21 / (Site 0 * Site 0 * Site 0 * Site 0) + Num (2#1) / (Site 0 * Site 0 * Site 0);
    Num (-6#1) * Var 21 / (Site 0 * Site 0 * Site 0 * Site 0) + Num (2#1) / (Site 0 * Site 0 * Site 0);
    Num (-6#1) * Var 21 / (Site 0 * Site 0 * Site 0 * Site 0) + Num (2#1) / (Site 0 * Site 0 * Site 0);
    Num (-6#1) * Var 21 / (Site 0 * Site 0 * Site 0 * Site 0) + Num (2#1) / (Site 0 * Site 0 * Site 0)];
    [Num (-6#1) * Var 21 / (Site 0 * Site 0 * Site 0 * Site 0) + Num (2#1) / (Site 0 * Site 0 * Site 0);
    Num (-6#1) * Var 21 / (Site 0 * Site 0 * Site 0 * Site 0) + Num (2#1) / (Site 0 * Site 0 * Site 0) + Num (2#1) / (Site 0 * Site 0 * Site 0);
    Num (-6#1) * Var 21 / (Site 0 * Site 0 * Site 0 * Site 0) + Num (2#1) / (Site 0 * Site 0 * Site 0);
    Num (-6#1) * Var 21 / (Site 0 * Site 0 * Site 0 * Site 0) + Num (2#1) / (Site 0 * Site 0 * Site 0);
    Num (-6#1) * Var 21 / (Site 0 * Site 0 * Site 0 * Site 0) + Num (2#1) / (Site 0 * Site 0 * Site 0);
    Num (-6#1) * Var 21 / (Site 0 * Site 0 * Site 0 * Site 0) + Num (2#1) / (Site 0 * Site 0 * Site 0);
    Num (-6#1) * Var 21 / (Site 0 * Site 0 * Site 0 * Site 0) + Num (2#1) / (Site 0 * Site 0 * Site 0)];
    [Num (-6#1) * Var 21 / (Site 0 * Site 0 * Site 0 * Site 0) + Num (2#1) / (Site 0 * Site 0 * Site 0);
    Num (-6#1) * Var 21 / (Site 0 * Site 0 * Site 0 * Site 0) + Num (2#1) / (Site 0 * Site 0 * Site 0) + Num (2#1) / (Site 0 * Site 0 * Site 0);
    Num (-6#1) * Var 21 / (Site 0 * Site 0 * Site 0 * Site 0) + Num (2#1) / (Site 0 * Site 0 * Site 0);
    Num (-6#1) * Var 21 / (Site 0 * Site 0 * Site 0 * Site 0) + Num (2#1) / (Site 0 * Site 0 * Site 0);
    Num (-6#1) * Var 21 / (Site 0 * Site 0 * Site 0 * Site 0) + Num (2#1) / (Site 0 * Site 0 * Site 0);
    Num (-6#1) * Var 21 / (Site 0 * Site 0 * Site 0 * Site 0) + Num (2#1) / (Site 0 * Site 0 * Site 0);
    Num (-6#1) * Var 21 / (Site 0 * Site 0 * Site 0 * Site 0) + Num (2#1) / (Site 0 * Site 0 * Site 0)]];
    [[Num (-6#1) * Var 21 / (Site 0 * Site 0 * Site 0 * Site 0);
    Num (-6#1) * Var 21 / (Site 0 * Site 0 * Site 0 * Site 0) + Num (2#1) / (Site 0 * Site 0 * Site 0);
    Num (-6#1) * Var 21 / (Site 0 * Site 0 * Site 0 * Site 0);
    Num (-6#1) * Var 21 / (Site 0 * Site 0 * Site 0 * Site 0);
    Num (-6#1) * Var 21 / (Site 0 * Site 0 * Site 0 * Site 0);
    Num (-6#1) * Var 21 / (Site 0 * Site 0 * Site 0 * Site 0);
    Num (-6#1) * Var 21 / (Site 0 * Site 0 * Site 0 * Site 0)];
    [Num (-6#1) * Var 21 / (Site 0 * Site 0 * Site 0 * Site 0) + Num (2#1) / (Site 0 * Site 0 * Site 0);
    Num (-6#1) * Var 21 / (Site 0 * Site 0 * Site 0 * Site 0) + Num (2#1) / (Site 0 * Site 0 * Site 0) + Num (2#1) / (Site 0 * Site 0 * Site 0);
    Num (-6#1) * Var 21 / (Site 0 * Site 0 * Site 0 * Site 0) + Num (2#1) / (Site 0 * Site 0 * Site 0);
    Num (-6#1) * Var 21 / (Site 0 * Site 0 * Site 0 * Site 0) + Num (2#1) / (Site 0 * Site 0 * Site 0);
    Num (-6#1) * Var 21 / (Site 0 * Site 0 * Site 0 * Site 0) + Num (2#1) / (Site 0 * Site 0 * Site 0);
    Num (-6#1) * Var 21 / (Site 0 * Site 0 * Site 0 * Site 0) + Num (2#1) / (Site 0 * Site 0 * Site 0);
    Num (-6#1) * Var 21 / (Site 0 * Site 0 * Site 0 * Site 0) + Num (2#1) / (Site 0 * Site 0 * Site 0)];
    [Num (-6#1) * Var 21 / (Site 0 * Site 0 * Site 0 * Site 0);
    Num (-6#1) * Var 21 / (Site 0 * Site 0 * Site 0 * Site 0) + Num (2#1) / (Site 0 * Site 0 * Site 0);
    Num (-6#1) * Var 21 / (Site 0 * Site 0 * Site 0 * Site 0);
    Num (-6#1) * Var 21 / (Site 0 * Site 0 * Site 0 * Site 0);
    Num (-6#1) * Var 21 / (Site 0 * Site 0 * Site 0 * Site 0);
    Num (-6#1) * Var 21 / (Site 0 * Site 0 * Site 0 * Site 0);
    Num (-6#1) * Var 21 / (Site 0 * Site 0 * Site 0 * Site 0)];
    [Num (-6#1) * Var 21 / (Site 0 * Site 0 * Site 0 * Site 0);
    Num (-6#1) * Var 21 / (Site 0 * Site 0 * Site 0 * Site 0) + Num (2#1) / (Site 0 * Site 0 * Site 0);
    Num (-6#1) * Var 21 / (Site 0 * Site 0 * Site 0 * Site 0);
    Num (-6#1) * Var 21 / (Site 0 * Site 0 * Site 0 * Site 0);
    Num (-6#1) * Var 21 / (Site 0 * Site 0 * Site 0 * Site 0);
    Num (-6#1) * Var 21 / (Site 0 * Site 0 * Site 0 * Site 0);
    Num (-6#1) * Var 21 / (Site 0 * Site 0 * Site 0 * Site 0)];
    [Num (-6#1) * Var 21 / (Site 0 * Site 0 * Site 0 * Site 0);
    Num (-6#1) * Var 21 / (Site 0 * Site 0 * Site 0 * Site 0) + Num (2#1) / (Site 0 * Site 0 * Site 0);
    Num (-6#1) * Var 21 / (Site 0 * Site 0 * Site 0 * Site 0);
    Num (-6#1) * Var 21 / (Site 0 * Site 0 * Site 0 * Site 0);
    Num (-6#1) * Var 21 / (Site 0 * Site 0 * Site 0 * Site 0);
    Num (-6#1) * Var 21 / (Site 0 * Site 0 * Site 0 * Site 0);
    Num (-6#1) * Var 21 / (Site 0 * Site 0 * Site 0 * Site 0)];
    [Num (-6#1) * Var 21 / (Site 0 * Site 0 * Site 0 * Site 0);
    Num (-6#1) * Var 21 / (Site 0 * Site 0 * Site 0 * Site 0) + Num (2#1) / (Site 0 * Site 0 * Site 0);
    Num (-6#1) * Var 21 / (Site 0 * Site 0 * Site 0 * Site 0);
    Num (-6#1) * Var 21 / (Site 0 * Site 0 * Site 0 * Site 0);
    Num (-6#1) * Var 21 / (Site 0 * Site 0 * Site 0 * Site 0);
    Num (-6#1) * Var 21 / (Site 0 * Site 0 * Site 0 * Site 0);
    Num (-6#1) * Var 21 / (Site 0 * Site 0 * Site 0 * Site 0)];
    [Num (-6#1) * Var 21 / (Site 0 * Site 0 * Site 0 * Site 0);
    Num (-6#1) * Var 21 / (Site 0 * Site 0 * Site 0 * Site 0) + Num (2#1) / (Site 0 * Site 0 * Site 0);
    Num (-6#1) * Var 21 / (Site 0 * Site 0 * Site 0 * Site 0);
    Num (-6#1) * Var 21 / (Site 0 * Site 0 * Site 0 * Site 0);
    Num (-6#1) * Var 21 / (Site 0 * Site 0 * Site 0 * Site 0);
    Num (-6#1) * Var 21 / (Site 0 * Site 0 * Site 0 * Site 0);
    Num (-6#1) * Var 21 / (Site 0 * Site 0 * Site 0 * Site 0)]];
    [[Num (-6#1) * Var 21 / (Site 0 * Site 0 * Site 0 * Site 0);
    Num (-6#1) * Var 21 / (Site 0 * Site 0 * Site 0 * Site 0) + Num (2#1) / (Site 0 * Site 0 * Site 0);
    Num (-6#1) * Var 21 / (Site 0 * Site 0 * Site 0 * Site 0);
    Num (-6#1) * Var 21 / (Site 0 * Site 0 * Site 0 * Site 0);
    Num (-6#1) * Var 21 / (Site 0 * Site 0 * Site 0 * Site 0);
    Num (-6#1) * Var 21 / (Site 0 * Site 0 * Site 0 * Site 0);
    Num (-6#1) * Var 21 / (Site 0 * Site 0 * Site 0 * Site 0)];
    [Num (-6#1) * Var 21 / (Site 0 * Site 0 * Site 0 * Site 0) + Num (2#1) / (Site 0 * Site 0 * Site 0);
    Num (-6#1) * Var 21 / (Site 0 * Site 0 * Site 0 * Site 0) + Num (2#1) / (Site 0 * Site 0 * Site 0) + Num (2#1) / (Site 0 * Site 0 * Site 0);
    Num (-6#1) * Var 21 / (Site 0 * Site 0 * Site 0 * Site 0) + Num (2#1) / (Site 0 * Site 0 * Site 0);
    Num (-6#1) * Var 21 / (Site 0 * Site 0 * Site 0 * Site 0) + Num (2#1) / (Site 0 * Site 0 * Site 0);
    Num (-6#1) * Var 21 / (Site 0 * Site 0 * Site 0 * Site 0) + Num (2#1) / (Site 0 * Site 0 * Site 0);
    Num (-6#1) * Var 21 / (Site 0 * Site 0 * Site 0 * Site 0) + Num (2#1) / (Site 0 * Site 0 * Site 0);
    Num (-6#1) * Var 21 / (Site 0 * Site 0 * Site 0 * Site 0) + Num (2#1) / (Site 0 * Site 0 * Site 0)];
    [Num (-6#1) * Var 21 / (Site 0 * Site 0 * Site 0 * Site 0);
    Num (-6#1) * Var 21 / (Site 0 * Site 0 * Site 0 * Site 0) + Num (2#1) / (Site 0 * Site 0 * Site 0);
    Num (-6#1) * Var 21 / (Site 0 * Site 0 * Site 0 * Site 0);
    Num (-6#1) * Var 21 / (Site 0 * Site 0 * Site 0 * Site 0);
    Num (-6#1) * Var 21 / (Site 0 * Site 0 * Site 0 * Site 0);
    Num (-6#1) * Var 21 / (Site 0 * Site 0 * Site 0 * Site 0);
    Num (-6#1) * Var 21 / (Site 0 * Site 0 * Site 0 * Site 0)];
    [Num (-6#1) * Var 21 / (Site 0 * Site 0 * Site 0 * Site 0);
    Num (-6#1) * Var 21 / (Site 0 * Site 0 * Site 0 * Site 0) + Num (2#1) / (Site 0 * Site 0 * Site 0);
    Num (-6#1) * Var 21 / (Site 0 * Site 0 * Site 0 * Site 0);
    Num (-6#1) * Var 21 / (Site 0 * Site 0 * Site 0 * Site 0);
    Num (-6#1) * Var 21 / (Site 0 * Site 0 * Site 0 * Site 0);
    Num (-6#1) * Var 21 / (Site 0 * Site 0 * Site 0 * Site 0);
    Num (-6#1) * Var 21 / (Site 0 * Site 0 * Site 0 * Site 0)];
    [Num (-6#1) * Var 21 / (Site 0 * Site 0 * Site 0 * Site 0);
    Num (-6#1) * Var 21 / (Site 0 * Site 0 * Site 0 * Site 0) + Num (2#1) / (Site 0 * Site 0 * Site 0);
    Num (-6#1) * Var 21 / (Site 0 * Site 0 * Site 0 * Site 0);
    Num (-6#1) * Var 21 / (Site 0 * Site 0 * Site 0 * Site 0);
    Num (-6#1) * Var 21 / (Site 0 * Site 0 * Site 0 * Site 0);
    Num (-6#1) * Var 21 / (Site 0 * Site 0 * Site 0 * Site 0);
    Num (-6#1) * Var 21 / (Site 0 * Site 0 * Site 0 * Site 0)];
    [Num (-6#1) * Var 21 / (Site 0 * Site 0 * Site 0 * Site 0);
    Num (-6#1) * Var 21 / (Site 0 * Site 0 * Site 0 * Site 0) + Num (2#1) / (Site 0 * Site 0 * Site 0);
    Num (-6#1) * Var 21 / (Site 0 * Site 0 * Site 0 * Site 0);
    Num (-6#1) * Var 21 / (Site 0 * Site 0 * Site 0 * Site 0);
    Num (-6#1) * Var 21 / (Site 0 * Site 0 * Site 0 * Site 0);
    Num (-6#1) * Var 21 / (Site 0 * Site 0 * Site 0 * Site 0);
    Num (-6#1) * Var 21 / (Site 0 * Site 0 * Site 0 * Site 0)];
    [Num (-6#1) * Var 21 / (Site 0 * Site 0 * Site 0 * Site 0);
    Num (-6#1) * Var 21 / (Site 0 * Site 0 * Site 0 * Site 0) + Num (2#1) / (Site 0 * Site 0 * Site 0);
    Num (-6#1) * Var 21 / (Site 0 * Site 0 * Site 0 * Site 0);
    Num (-6#1) * Var 21 / (Site 0 * Site 0 * Site 0 * Site 0);
    Num (-6#1) * Var 21 / (Site 0 * Site 0 * Site 0 * Site 0);
    Num (-6#1) * Var 21 / (Site 0 * Site 0 * Site 0 * Site 0);
    Num (-6#1) * Var 21 / (Site 0 * Site 0 * Site 0 * Site 0)]];
    [[Num (-6#1) * Var 21 / (Site 0 * Site 0 * Site 0 * Site 0);
    Num (-6#1) * Var 21 / (Site 0 * Site 0 * Site 0 * Site 0) + Num (2#1) / (Site 0 * Site 0 * Site 0);
    Num (-6#1) * Var 21 / (Site 0 * Site 0 * Site 0 * Site 0);
    Num (-6#1) * Var 21 / (Site 0 * Site 0 * Site 0 * Site 0);
    Num (-6#1) * Var 21 / (Site 0 * Site 0 * Site 0 * Site 0);
    Num (-6#1) * Var 21 / (Site 0 * Site 0 * Site 0 * Site 0);
    Num (-6#1) * Var 21 / (Site 0 * Site 0 * Site 0 * Site 0)];
    [Num (-6#1) * Var 21 / (Site 0 * Site 0 * Site 0 * Site 0) + Num (2#1) / (Site 0 * Site 0 * Site 0);
    Num (-6#1) * Var 21 / (Site 0 * Site 0 * Site 0 * Site 0) + Num (2#1) / (Site 0 * Site 0 * Site 0) + Num (2#1) / (Site 0 * Site 0 * Site 0);
    Num (-6#1) * Var 21 / (Site 0 * Site 0 * Site 0 * Site 0) + Num (2#1) / (Site 0 * Site 0 * Site 0);
    Num (-6#1) * Var 21 / (Site 0 * Site 0 * Site 0 * Site 0) + Num (2#1) / (Site 0 * Site 0 * Site 0);
    Num (-6#1) * Var 21 / (Site 0 * Site 0 * Site 0 * Site 0) + Num (2#1) / (Site 0 * Site 0 * Site 0);
    Num (-6#1) * Var 21 / (Site 0 * Site 0 * Site 0 * Site 0) + Num (2#1) / (Site 0 * Site 0 * Site 0);
    Num (-6#1) * Var 21 / (Site 0 * Site 0 * Site 0 * Site 0) + Num (2#1) / (Site 0 * Site 0 * Site 0)];
    [Num (-6#1) * Var 21 / (Site 0 * Site 0 * Site 0 * Site 0);
    Num (-6#1) * Var 21 / (Site 0 * Site 0 * Site 0 * Site 0) + Num (2#1) / (Site 0 * Site 0 * Site 0);
    Num (-6#1) * Var 21 / (Site 0 * Site 0 * Site 0 * Site 0);
    Num (-6#1) * Var 21 / (Site 0 * Site 0 * Site 0 * Site 0);
    Num (-6#1) * Var 21 / (Site 0 * Site 0 * Site 0 * Site 0);
    Num (-6#1) * Var 21 / (Site 0 * Site 0 * Site 0 * Site 0);
    Num (-6#1) * Var 21 / (Site 0 * Site 0 * Site 0 * Site 0)];
    [Num (-6#1) * Var 21 / (Site 0 * Site 0 * Site 0 * Site 0);
    Num (-6#1) * Var 21 / (Site 0 * Site 0 * Site 0 * Site 0) + Num (2#1) / (Site 0 * Site 0 * Site 0);
    Num (-6#1) * Var 21 / (Site 0 * Site 0 * Site 0 * Site 0);
    Num (-6#1) * Var 21 / (Site 0 * Site 0 * Site 0 * Site 0);
    Num (-6#1) * Var 21 / (Site 0 * Site 0 * Site 0 * Site 0);
    Num (-6#1) * Var 21 / (Site 0 * Site 0 * Site 0 * Site 0);
    Num (-6#1) * Var 21 / (Site 0 * Site 0 * Site 0 * Site 0)];
    [Num (-6#1) * Var 21 / (Site 0 * Site 0 * Site 0 * Site 0);
    Num (-6#1) * Var 21 / (Site 0 * Site 0 * Site 0 * Site 0) + Num (2#1) / (Site 0 * Site 0 * Site 0);
    Num (-6#1) * Var 21 / (Site 0 * Site 0 * Site 0 * Site 0);
    Num (-6#1) * Var 21 / (Site 0 * Site 0 * Site 0 * Site 0);
    Num (-6#1) * Var 21 / (Site 0 * Site 0 * Site 0 * Site 0);
    Num (-6#1) * Var 21 / (Site 0 * Site 0 * Site 0 * Site 0);
    Num (-6#1) * Var 21 / (Site 0 * Site 0 * Site 0 * Site 0)];
    [Num (-6#1) * Var 21 / (Site 0 * Site 0 * Site 0 * Site 0);
    Num (-6#1) * Var 21 / (Site 0 * Site 0 * Site 0 * Site 0) + Num (2#1) / (Site 0 * Site 0 * Site 0);
    Num (-6#1) * Var 21 / (Site 0 * Site 0 * Site 0 * Site 0);
    Num (-6#1) * Var 21 / (Site 0 * Site 0 * Site 0 * Site 0);
    Num (-6#1) * Var 21 / (Site 0 * Site 0 * Site 0 * Site 0);
    Num (-6#1) * Var 21 / (Site 0 * Site 0 * Site 0 * Site 0);
    Num (-6#1) * Var 21 / (Site 0 * Site 0 * Site 0 * Site 0)];
    [Num (-6#1) * Var 21 / (Site 0 * Site 0 * Site 0 * Site 0);
    Num (-6#1) * Var 21 / (Site 0 * Site 0 * Site 0 * Site 0) + Num (2#1) / (Site 0 * Site 0 * Site 0);
    Num (-6#1) * Var 21 / (Site 0 * Site 0 * Site 0 * Site 0);
    Num (-6#1) * Var 21 / (Site 0 * Site 0 * Site 0 * Site 0);
    Num (-6#1) * Var 21 / (Site 0 * Site 0 * Site 0 * Site 0);
    Num (-6#1) * Var 21 / (Site 0 * Site 0 * Site 0 * Site 0);
    Num (-6#1) * Var 21 / (Site 0 * Site 0 * Site 0 * Site 0)]];
    [[Num (-6#1) * Var 21 / (Site 0 * Site 0 * Site 0 * Site 0);
    Num (-6#1) * Var 21 / (Site 0 * Site 0 * Site 0 * Site 0) + Num (2#1) / (Site 0 * Site 0 * Site 0);
    Num (-6#1) * Var 21 / (Site 0 * Site 0 * Site 0 * Site 0);
    Num (-6#1) * Var 21 / (Site 0 * Site 0 * Site 0 * Site 0);
    Num (-6#1) * Var 21 / (Site 0 * Site 0 * Site 0 * Site 0);
    Num (-6#1) * Var 21 / (Site 0 * Site 0 * Site 0 * Site 0);
    Num (-6#1) * Var 21 / (Site 0 * Site 0 * Site 0 * Site 0)];
    [Num (-6#1) * Var 21 / (Site 0 * Site 0 * Site 0 * Site 0) + Num (2#1) / (Site 0 * Site 0 * Site 0);
    Num (-6#1) * Var 21 / (Site 0 * Site 0 * Site 0 * Site 0) + Num (2#1) / (Site 0 * Site 0 * Site 0) + Num (2#1) / (Site 0 * Site 0 * Site 0);
    Num (-6#1) * Var 21 / (Site 0 * Site 0 * Site 0 * Site 0) + Num (2#1) / (Site 0 * Site 0 * Site 0);
    Num (-6#1) * Var 21 / (Site 0 * Site 0 * Site 0 * Site 0) + Num (2#1) / (Site 0 * Site 0 * Site 0);
    Num (-6#1) * Var 21 / (Site 0 * Site 0 * Site 0 * Site 0) + Num (2#1) / (Site 0 * Site 0 * Site 0);
    Num (-6#1) * Var 21 / (Site 0 * Site 0 * Site 0 * Site 0) + Num (2#1) / (Site 0 * Site 0 * Site 0);
    Num (-6#1) * Var 21 / (Site 0 * Site 0 * Site 0 * Site 0) + Num (2#1) / (Site 0 * Site 0 * Site 0)];
    [Num (-6#1) * Var 21 / (Site 0 * Site 0 * Site 0 * Site 0);
    Num (-6#1) * Var 21 / (Site 0 * Site 0 * Site 0 * Site 0) + Num (2#1) / (Site 0 * Site 0 * Site 0);
    Num (-6#1) * Var 21 / (Site 0 * Site 0 * Site 0 * Site 0);
    Num (-6#1) * Var 21 / (Site 0 * Site 0 * Site 0 * Site 0);
    Num (-6#1) * Var 21 / (Site 0 * Site 0 * Site 0 * Site 0);
    Num (-6#1) * Var 21 / (Site 0 * Site 0 * Site 0 * Site 0);
    Num (-6#1) * Var 21 / (Site 0 * Site 0 * Site 0 * Site 0)];
    [Num (-6#1) * Var 21 / (Site 0 * Site 0 * Site 0 * Site 0);
    Num (-6#1) * Var 21 / (Site 0 * Site 0 * Site 0 * Site 0) + Num (2#1) / (Site 0 * Site 0 * Site 0);
    Num (-6#1) * Var 21 / (Site 0 * Site 0 * Site 0 * Site 0);
    Num (-6#1) * Var 21 / (Site 0 * Site 0 * Site 0 * Site 0);
    Num (-6#1) * Var 21 / (Site 0 * Site 0 * Site 0 * Site 0);
    Num (-6#1) * Var 21 / (Site 0 * Site 0 * Site 0 * Site 0);
    Num (-6#1) * Var 21 / (Site 0 * Site 0 * Site 0 * Site 0)];
    [Num (-6#1) * Var 21 / (Site 0 * Site 0 * Site 0 * Site 0);
    Num (-6#1) * Var 21 / (Site 0 * Site 0 * Site 0 * Site 0) + Num (2#1) / (Site 0 * Site 0 * Site 0);
    Num (-6#1) * Var 21 / (Site 0 * Site 0 * Site 0 * Site 0);
    Num (-6#1) * Var 21 / (Site 0 * Site 0 * Site 0 * Site 0);
    Num (-6#1) * Var 21 / (Site 0 * Site 0 * Site 0 * Site 0);
    Num (-6#1) * Var 21 / (Site 0 * Site 0 * Site 0 * Site 0);
    Num (-6#1) * Var 21 / (Site 0 * Site 0 * Site 0 * Site 0)];
    [Num (-6#1) * Var 21 / (Site 0 * Site 0 * Site 0 * Site 0);
    Num (-6#1) * Var 21 / (Site 0 * Site 0 * Site 0 * Site 0) + Num (2#1) / (Site 0 * Site 0 * Site 0);
    Num (-6#1) * Var 21 / (Site 0 * Site 0 * Site 0 * Site 0);
    Num (-6#1) * Var 21 / (Site 0 * Site 0 * Site 0 * Site 0);
    Num (-6#1) * Var 21 / (Site 0 * Site 0 * Site 0 * Site 0);
    Num (-6#1) * Var 21 / (Site 0 * Site 0 * Site 0 * Site 0);
    Num (-6#1) * Var 21 / (Site 0 * Site 0 * Site 0 * Site 0)];
    [Num (-6#1) * Var 21 / (Site 0 * Site 0 * Site 0 * Site 0);
    Num (-6#1) * Var 21 / (Site 0 * Site 0 * Site 0 * Site 0) + Num (2#1) / (Site 0 * Site 0 * Site 0);
    Num (-6#1) * Var 21 / (Site 0 * Site 0 * Site 0 * Site 0);
    Num (-6#1) * Var 21 / (Site 0 * Site 0 * Site 0 * Site 0);
    Num (-6#1) * Var 21 / (Site 0 * Site 0 * Site 0 * Site 0);
    Num (-6#1) * Var 21 / (Site 0 * Site 0 * Site 0 * Site 0);
    Num (-6#1) * Var 21 / (Site 0 * Site 0 * Site 0 * Site 0)]];
    [[Num (-6#1) * Var 21 / (Site 0 * Site 0 * Site 0 * Site 0);
    Num (-6#1) * Var 21 / (Site 0 * Site 0 * Site 0 * Site 0) + Num (2#1) / (Site 0 * Site 0 * Site 0);
    Num (-6#1) * Var 21 / (Site 0 * Site 0 * Site 0 * Site 0);
    Num (-6#1) * Var 21 / (Site 0 * Site 0 * Site 0 * Site 0);
    Num (-6#1) * Var 21 / (Site 0 * Site 0 * Site 0 * Site 0);
    Num (-6#1) * Var 21 / (Site 0 * Site 0 * Site 0 * Site 0);
    Num (-6#1) * Var 21 / (Site 0 * Site 0 * Site 0 * Site 0)];
    [Num (-6#1) * Var 21 / (Site 0 * Site 0 * Site 0 * Site 0) + Num (2#1) / (Site 0 * Site 0 * Site 0);
    Num (-6#1) * Var 21 / (Site 0 * Site 0 * Site 0 * Site 0) + Num (2#1) / (Site 0 * Site 0 * Site 0) + Num (2#1) / (Site 0 * Site 0 * Site 0);
    Num (-6#1) * Var 21 / (Site 0 * Site 0 * Site 0 * Site 0) + Num (2#1) / (Site 0 * Site 0 * Site 0);
    Num (-6#1) * Var 21 / (Site 0 * Site 0 * Site 0 * Site 0) + Num (2#1) / (Site 0 * Site 0 * Site 0);
    Num (-6#1) * Var 21 / (Site 0 * Site 0 * Site 0 * Site 0) + Num (2#1) / (Site 0 * Site 0 * Site 0);
    Num (-6#1) * Var 21 / (Site 0 * Site 0 * Site 0 * Site 0) + Num (2#1) / (Site 0 * Site 0 * Site 0);
    Num (-6#1) * Var 21 / (Site 0 * Site 0 * Site 0 * Site 0) + Num (2#1) / (Site 0 * Site 0 * Site 0)];
    [Num (-6#1) * Var 21 / (Site 0 * Site 0 * Site 0 * Site 0);
    Num (-6#1) * Var 21 / (Site 0 * Site 0 * Site 0 * Site 0) + Num (2#1) / (Site 0 * Site 0 * Site 0);
    Num (-6#1) * Var 21 / (Site 0 * Site 0 * Site 0 * Site 0);
    Num (-6#1) * Var 21 / (Site 0 * Site 0 * Site 0 * Site 0);
    Num (-6#1) * Var 21 / (Site 0 * Site 0 * Site 0 * Site 0);
    Num (-6#1) * Var 21 / (Site 0 * Site 0 * Site 0 * Site 0);
    Num (-6#1) * Var 21 / (Site 0 * Site 0 * Site 0 * Site 0)];
    [Num (-6#1) * Var 21 / (Site 0 * Site 0 * Site 0 * Site 0);
    Num (-6#1) * Var 21 / (Site 0 * Site 0 * Site 0 * Site 0) + Num (2#1) / (Site 0 * Site 0 * Site 0);
    Num (-6#1) * Var 21 / (Site 0 * Site 0 * Site 0 * Site 0);
    Num (-6#1) * Var 21 / (Site 0 * Site 0 * Site 0 * Site 0);
    Num (-6#1) * Var 21 / (Site 0 * Site 0 * Site 0 * Site 0);
    Num (-6#1) * Var 21 / (Site 0 * Site 0 * Site 0 * Site 0);
    Num (-6#1) * Var 21 / (Site 0 * Site 0 * Site 0 * Site 0)];
    [Num (-6#1) * Var 21 / (Site 0 * Site 0 * Site 0 * Site 0);
    Num (-6#1) * Var 21 / (Site 0 * Site 0 * Site 0 * Site 0) + Num (2#1) / (Site 0 * Site 0 * Site 0);
    Num (-6#1) * Var 21 / (Site 0 * Site 0 * Site 0 * Site 0);
    Num (-6#1) * Var 21 / (Site 0 * Site 0 * Site 0 * Site 0);
    Num (-6#1) * Var 21 / (Site 0 * Site 0 * Site 0 * Site 0);
    Num (-6#1) * Var 21 / (Site 0 * Site 0 * Site 0 * Site 0);
    Num (-6#1) * Var 21 / (Site 0 * Site 0 * Site 0 * Site 0)];
    [Num (-6#1) * Var 21 / (Site 0 * Site 0 * Site 0 * Site 0);
    Num (-6#1) * Var 21 / (Site 0 * Site 0 * Site 0 * Site 0) + Num (2#1) / (Site 0 * Site 0 * Site 0);
    Num (-6#1) * Var 21 / (Site 0 * Site 0 * Site 0 * Site 0);
    Num (-6#1) * Var 21 / (Site 0 * Site 0 * Site 0 * Site 0);
    Num (-6#1) * Var 21 / (Site 0 * Site 0 * Site 0 * Site 0);
    Num (-6#1) * Var 21 / (Site 0 * Site 0 * Site 0 * Site 0);
    Num (-6#1) * Var 21 / (Site 0 * Site 0 * Site 0 * Site 0)];
    [Num (-6#1) * Var 21 / (Site 0 * Site 0 * Site 0 * Site 0);
    Num (-6#1) * Var 21 / (Site 0 * Site 0 * Site 0 * Site 0) + Num (2#1) / (Site 0 * Site 0 * Site 0);
    Num (-6#1) * Var 21 / (Site 0 * Site 0 * Site 0 * Site 0);
    Num (-6#1) * Var 21 / (Site 0 * Site 0 * Site 0 * Site 0);
    Num (-6#1) * Var 21 / (Site 0 * Site 0 * Site 0 * Site 0);
    Num (-6#1) * Var 21 / (Site 0 * Site 0 * Site 0 * Site 0);
    Num (-6#1) * Var 21 / (Site 0 * Site 0 * Site 0 * Site 0)]]]].
(** sources/orthopyroxene.c 4117-4400: conOpx, inpMask THIRD, output x[i] from r *)
Definition Opx_con_xr :=
  [Num (1#1) - Var 2 - Var 3 - Var 4 - Var 5 - Var 6 / Num (2#1) - Var 7;
    Var 7;
    Var 2;
    Var 3 - Var 6 / Num (2#1);
    Var 4 + Var 6 / Num (2#1);
    Var 5 - Var 6 / Num (2#1);
    Var 6].
(** sources/orthopyroxene.c 4117-4400: conOpx, inpMask THIRD, output dr[i][j] *)
Definition Opx_con_dr :=
  [[Num (-1#1);
    Num (-1#1);
    Num (-1#1);
    Num (-1#1);
    Num (-1#2);
    Num (-1#1)];
    [Num (0#1);
    Num (0#1);
    Num (0#1);
    Num (0#1);
    Num (0#1);
    Num (1#1)];
    [Num (1#1);
    Num (0#1);
    Num (0#1);
    Num (0#1);
    Num (0#1);
    Num (0#1)];
    [Num (0#1);
    Num (1#1);
    Num (0#1);
    Num (0#1);
    Num (-1#2);
    Num (0#1)];
    [Num (0#1);
    Num (0#1);
    Num (1#1);
    Num (0#1);
    Num (1#2);
    Num (0#1)];
    [Num (0#1);
    Num (0#1);
    Num (0#1);
    Num (1#1);
    Num (-1#2);
    Num (0#1)];
    [Num (0#1);
    Num (0#1);
    Num (0#1);
    Num (0#1);
    Num (1#1);
    Num (0#1)]].
(** sources/orthopyroxene.c 4117-4400: x[i] from r is set to zero when it is smaller in absolute value than this number *)
Definition Opx_con_snap : list (nat * Q) := [].
Definition conOpx : conv :=
  mkConv "orthopyroxene" 7 6 Opx_con_r Opx_con_x Opx_con_dm Opx_con_d2m Opx_con_d3m Opx_con_xr Opx_con_dr Opx_con_snap.

(** sources/rhombohedral.c 2226-2418: conRhm, inpMask SECOND, output r[i] from m *)
Definition Rhm_con_r :=
  [Var 22 / Site 0;
    Var 20 / Site 0;
    Var 23 / Site 0].
(** sources/rhombohedral.c 2226-2418: conRhm, inpMask SECOND, output x[i] from m *)
Definition Rhm_con_x :=
  [Var 20 / Site 0;
    Var 21 / Site 0;
    Var 22 / Site 0;
    Var 23 / Site 0].
(** sources/rhombohedral.c 2226-2418: conRhm, inpMask SECOND, output dm[i][j] *)
Definition Rhm_con_dm :=
  [[(- Var 22) / (Site 0 * Site 0);
    (- Var 22) / (Site 0 * Site 0);
    (Num (1#1) - Var 22 / Site 0) / Site 0;
    (- Var 22) / (Site 0 * Site 0)];
    [(Num (1#1) - Var 20 / Site 0) / Site 0;
    (- Var 20) / (Site 0 * Site 0);
    (- Var 20) / (Site 0 * Site 0);
    (- Var 20) / (Site 0 * Site 0)];
    [(- Var 23) / (Site 0 * Site 0);
    (- Var 23) / (Site 0 * Site 0);
    (- Var 23) / (Site 0 * Site 0);
    (Num (1#1) - Var 23 / Site 0) / Site 0]].
(** sources/rhombohedral.c 2226-2418: conRhm, inpMask SECOND, output d2m[i][j][k] *)
Definition Rhm_con_d2m :=
  [[[Num (2#1) * Var 22 / (Site 0 * Site 0 * Site 0);
    Num (2#1) * Var 22 / (Site 0 * Site 0 * Site 0);
    Num (2#1) * Var 22 / (Site 0 * Site 0 * Site 0) - Num (1#1) / (Site 0 * Site 0);
    Num (2#1) * Var 22 / (Site 0 * Site 0 * Site 0)];
    [Num (2#1) * Var 22 / (Site 0 * Site 0 * Site 0);
    Num (2#1) * Var 22 / (Site 0 * Site 0 * Site 0);
    Num (2#1) * Var 22 / (Site 0 * Site 0 * Site 0) - Num (1#1) / (Site 0 * Site 0);
    Num (2#1) * Var 22 / (Site 0 * Site 0 * Site 0)];
    [Num (2#1) * Var 22 / (Site 0 * Site 0 * Site 0) - Num (1#1) / (Site 0 * Site 0);
    Num (2#1) * Var 22 / (Site 0 * Site 0 * Site 0) - Num (1#1) / (Site 0 * Site 0);
    Num (2#1) * Var 22 / (Site 0 * Site 0 * Site 0) - Num (1#1) / (Site 0 * Site 0) - Num (1#1) / (Site 0 * Site 0);
    Num (2#1) * Var 22 / (Site 0 * Site 0 * Site 0) - Num (1#1) / (Site 0 * Site 0)];
    [Num (2#1) * Var 22 / (Site 0 * Site 0 * Site 0);
    Num (2#1) * Var 22 / (Site 0 * Site 0 * Site 0);
    Num (2#1) * Var 22 / (Site 0 * Site 0 * Site 0) - Num (1#1) / (Site 0 * Site 0);
    Num (2#1) * Var 22 / (Site 0 * Site 0 * Site 0)]];
    [[Num (2#1) * Var 20 / (Site 0 * Site 0 * Site 0) - Num (1#1) / (Site 0 * Site 0) - Num (1#1) / (Site 0 * Site 0);
    Num (2#1) * Var 20 / (Site 0 * Site 0 * Site 0) - Num (1#1) / (Site 0 * Site 0);
    Num (2#1) * Var 20 / (Site 0 * Site 0 * Site 0) - Num (1#1) / (Site 0 * Site 0);
    Num (2#1) * Var 20 / (Site 0 * Site 0 * Site 0) - Num (1#1) / (Site 0 * Site 0)];
    [Num (2#1) * Var 20 / (Site 0 * Site 0 * Site 0) - Num (1#1) / (Site 0 * Site 0);
    Num (2#1) * Var 20 / (Site 0 * Site 0 * Site 0);
    Num (2#1) * Var 20 / (Site 0 * Site 0 * Site 0);
    Num (2#1) * Var 20 / (Site 0 * Site 0 * Site 0)];
    [Num (2#1) * Var 20 / (Site 0 * Site 0 * Site 0) - Num (1#1) / (Site 0 * Site 0);
    Num (2#1) * Var 20 / (Site 0 * Site 0 * Site 0);
    Num (2#1) * Var 20 / (Site 0 * Site 0 * Site 0);
    Num (2#1) * Var 20 / (Site 0 * Site 0 * Site 0)];
    [Num (2#1) * Var 20 / (Site 0 * Site 0 * Site 0) - Num (1#1) / (Site 0 * Site 0);
    Num (2#1) * Var 20 / (Site 0 * Site 0 * Site 0);
    Num (2#1) * Var 20 / (Site 0 * Site 0 * Site 0);
    Num (2#1) * Var 20 / (Site 0 * Site 0 * Site 0)]];
    [[Num (2#1) * Var 23 / (Site 0 * Site 0 * Site 0);
    Num (2#1) * Var 23 / (Site 0 * Site 0 * Site 0);
    Num (2#1) * Var 23 / (Site 0 * Site 0 * Site 0);
    Num (2#1) * Var 23 / (Site 0 * Site 0 * Site 0) - Num (1#1) / (Site 0 * Site 0)];
    [Num (2#1) * Var 23 / (Site 0 * Site 0 * Site 0);
    Num (2#1) * Var 23 / (Site 0 * Site 0 * Site 0);
    Num (2#1) * Var 23 / (Site 0 * Site 0 * Site 0);
    Num (2#1) * Var 23 / (Site 0 * Site 0 * Site 0) - Num (1#1) / (Site 0 * Site 0)];
    [Num (2#1) * Var 23 / (Site 0 * Site 0 * Site 0);
    Num (2#1) * Var 23 / (Site 0 * Site 0 * Site 0);
    Num (2#1) * Var 23 / (Site 0 * Site 0 * Site 0);
    Num (2#1) * Var 23 / (Site 0 * Site 0 * Site 0) - Num (1#1) / (Site 0 * Site 0)];
    [Num (2#1) * Var 23 / (Site 0 * Site 0 * Site 0) - Num (1#1) / (Site 0 * Site 0);
    Num (2#1) * Var 23 / (Site 0 * Site 0 * Site 0) - Num (1#1) / (Site 0 * Site 0);
    Num (2#1) * Var 23 / (Site 0 * Site 0 * Site 0) - Num (1#1) / (Site 0 * Site 0);
    Num (2#1) * Var 23 / (Site 0 * Site 0 * Site 0) - Num (1#1) / (Site 0 * Site 0) - Num (1#1) / (Site 0 * Site 0)]]].
(** sources/rhombohedral.c 2226-2418: conRhm, inpMask SECOND, output d3m[i][j][k][l] *)
Definition Rhm_con_d3m :=
  [[[[Num (-6#1) * Var 22 / (Site 0 * Site 0 * Site 0 * Site 0);
    Num (-6#1) * Var 22 / (Site 0 * Site 0 * Site 0 * Site 0);
    Num (-6#1) * Var 22 / (Site 0 * Site 0 * Site 0 * Site 0) + Num (2#1) / (Site 0 * Site 0 * Site 0);
    Num (-6#1) * Var 22 / (Site 0 * Site 0 * Site 0 * Site 0)];
    [Num (-6#1) * Var 22 / (Site 0 * Site 0 * Site 0 * Site 0);
    Num (-6#1) * Var 22 / (Site 0 * Site 0 * Site 0 * Site 0);
    Num (-6#1) * Var 22 / (Site 0 * Site 0 * Site 0 * Site 0) + Num (2#1) / (Site 0 * Site 0 * Site 0);
    Num (-6#1) * Var 22 / (Site 0 * Site 0 * Site 0 * Site 0)];
    [Num (-6#1) * Var 22 / (Site 0 * Site 0 * Site 0 * Site 0) + Num (2#1) / (Site 0 * Site 0 * Site 0);
    Num (-6#1) * Var 22 / (Site 0 * Site 0 * Site 0 * Site 0) + Num (2#1) / (Site 0 * Site 0 * Site 0);
    Num (-6#1) * Var 22 / (Site 0 * Site 0 * Site 0 * Site 0) + Num (2#1) / (Site 0 * Site 0 * Site 0) + Num (2#1) / (Site 0 * Site 0 * Site 0);
    Num (-6#1) * Var 22 / (Site 0 * Site 0 * Site 0 * Site 0) + Num (2#1) / (Site 0 * Site 0 * Site 0)];
    [Num (-6#1) * Var 22 / (Site 0 * Site 0 * Site 0 * Site 0);
    Num (-6#1) * Var 22 / (Site 0 * Site 0 * Site 0 * Site 0);
    Num (-6#1) * Var 22 / (Site 0 * Site 0 * Site 0 * Site 0) + Num (2#1) / (Site 0 * Site 0 * Site 0);
    Num (-6#1) * Var 22 / (Site 0 * Site 0 * Site 0 * Site 0)]];
    [[Num (-6#1) * Var 22 / (Site 0 * Site 0 * Site 0 * Site 0);
    Num (-6#1) * Var 22 / (Site 0 * Site 0 * Site 0 * Site 0);
    Num (-6#1) * Var 22 / (Site 0 * Site 0 * Site 0 * Site 0) + Num (2#1) / (Site 0 * Site 0 * Site 0);
    Num (-6#1) * Var 22 / (Site 0 * Site 0 * Site 0 * Site 0)];
    [Num (-6#1) * Var 22 / (Site 0 * Site 0 * Site 0 * Site 0);
    Num (-6#1) * Var 22 / (Site 0 * Site 0 * Site 0 * Site 0);
    Num (-6#1) * Var 22 / (Site 0 * Site 0 * Site 0 * Site 0) + Num (2#1) / (Site 0 * Site 0 * Site 0);
    Num (-6#1) * Var 22 / (Site 0 * Site 0 * Site 0 * Site 0)];
    [Num (-6#1) * Var 22 / (Site 0 * Site 0 * Site 0 * Site 0) + Num (2#1) / (Site 0 * Site 0 * Site 0);
    Num (-6#1) * Var 22 / (Site 0 * Site 0 * Site 0 * Site 0) + Num (2#1) / (Site 0 * Site 0 * Site 0);
    Num (-6#1) * Var 22 / (Site 0 * Site 0 * Site 0 * Site 0) + Num (2#1) / (Site 0 * Site 0 * Site 0) + Num (2#1) / (Site 0 * Site 0 * Site 0);
    Num (-6#1) * Var 22 / (Site 0 * Site 0 * Site 0 * Site 0) + Num (2#1) / (Site 0 * Site 0 * Site 0)];
    [Num (-6#1) * Var 22 / (Site 0 * Site 0 * Site 0 * Site 0);
    Num (-6#1) * Var 22 / (Site 0 * Site 0 * Site 0 * Site 0);
    Num (-6#1) * Var 22 / (Site 0 * Site 0 * Site 0 * Site 0) + Num (2#1) / (Site 0 * Site 0 * Site 0);
    Num (-6#1) * Var 22 / (Site 0 * Site 0 * Site 0 * Site 0)]];
    [[Num (-6#1) * Var 22 / (Site 0 * Site 0 * Site 0 * Site 0) + Num (2#1) / (Site 0 * Site 0 * Site 0);
    Num (-6#1) * Var 22 / (Site 0 * Site 0 * Site 0 * Site 0) + Num (2#1) / (Site 0 * Site 0 * Site 0);
    Num (-6#1) * Var 22 / (Site 0 * Site 0 * Site 0 * Site 0) + Num (2#1) / (Site 0 * Site 0 * Site 0) + Num (2#1) / (Site 0 * Site 0 * Site 0);
    Num (-6#1) * Var 22 / (Site 0 * Site 0 * Site 0 * Site 0) + Num (2#1) / (Site 0 * Site 0 * Site 0)];
    [Num (-6#1) * Var 22 / (Site 0 * Site 0 * Site 0 * Site 0) + Num (2#1) / (Site 0 * Site 0 * Site 0);
    Num (-6#1) * Var 22 / (Site 0 * Site 0 * Site 0 * Site 0) + Num (2#1) / (Site 0 * Site 0 * Site 0);
    Num (-6#1) * Var 22 / (Site 0 * Site 0 * Site 0 * Site 0) + Num (2#1) / (Site 0 * Site 0 * Site 0) + Num (2#1) / (Site 0 * Site 0 * Site 0);
    Num (-6#1) * Var 22 / (Site 0 * Site 0 * Site 0 * Site 0) + Num (2#1) / (Site 0 * Site 0 * Site 0)];
    [Num (-6#1) * Var 22 / (Site 0 * Site 0 * Site 0 * Site 0) + Num (2#1) / (Site 0 * Site 0 * Site 0) + Num (2#1) / (Site 0 * Site 0 * Site 0);
    Num (-6#1) * Var 22 / (Site 0 * Site 0 * Site 0 * Site 0) + Num (2#1) / (Site 0 * Site 0 * Site 0) + Num (2#1) / (Site 0 * Site 0 * Site 0);
    Num (-6#1) * Var 22 / (Site 0 * Site 0 * Site 0 * Site 0) + Num (2#1) / (Site 0 * Site 0 * Site 0) + Num (2#1) / (Site 0 * Site 0 * Site 0) + Num (2#1) / (Site 0 * Site 0 * Site 0);
    Num (-6#1) * Var 22 / (Site 0 * Site 0 * Site 0 * Site 0) + Num (2#1) / (Site 0 * Site 0 * Site 0) + Num (2#1) / (Site 0 * Site 0 * Site 0)];
    [Num (-6#1) * Var 22 / (Site 0 * Site 0 * Site 0 * Site 0) + Num (2#1) / (Site 0 * Site 0 * Site 0);
    Num (-6#1) * Var 22 / (Site 0 * Site 0 * Site 0 * Site 0) + Num (2#1) / (Site 0 * Site 0 * Site 0);
    Num (-6#1) * Var 22 / (Site 0 * Site 0 * Site 0 * Site 0) + Num (2#1) / (Site 0 * Site 0 * Site 0) + Num (2#1) / (Site 0 * Site 0 * Site 0);
    Num (-6#1) * Var 22 / (Site 0 * Site 0 * Site 0 * Site 0) + Num (2#1) / (Site 0 * Site 0 * Site 0)]];
    [[Num (-6#1) * Var 22 / (Site 0 * Site 0 * Site 0 * Site 0);
    Num (-6#1) * Var 22 / (Site 0 * Site 0 * Site 0 * Site 0);
    Num (-6#1) * Var 22 / (Site 0 * Site 0 * Site 0 * Site 0) + Num (2#1) / (Site 0 * Site 0 * Site 0);
    Num (-6#1) * Var 22 / (Site 0 * Site 0 * Site 0 * Site 0)];
    [Num (-6#1) * Var 22 / (Site 0 * Site 0 * Site 0 * Site 0);
    Num (-6#1) * Var 22 / (Site 0 * Site 0 * Site 0 * Site 0);
    Num (-6#1) * Var 22 / (Site 0 * Site 0 * Site 0 * Site 0) + Num (2#1) / (Site 0 * Site 0 * Site 0);
    Num (-6#1) * Var 22 / (Site 0 * Site 0 * Site 0 * Site 0)];
    [Num (-6#1) * Var 22 / (Site 0 * Site 0 * Site 0 * Site 0) + Num (2#1) / (Site 0 * Site 0 * Site 0);
    Num (-6#1) * Var 22 / (Site 0 * Site 0 * Site 0 * Site 0) + Num (2#1) / (Site 0 * Site 0 * Site 0);
    Num (-6#1) * Var 22 / (Site 0 * Site 0 * Site 0 * Site 0) + Num (2#1) / (Site 0 * Site 0 * Site 0) + Num (2#1) / (Site 0 * Site 0 * Site 0);
    Num (-6#1) * Var 22 / (Site 0 * Site 0 * Site 0 * Site 0) + Num (2#1) / (Site 0 * Site 0 * Site 0)];
    [Num (-6#1) * Var 22 / (Site 0 * Site 0 * Site 0 * Site 0);
    Num (-6#1) * Var 22 / (Site 0 * Site 0 * Site 0 * Site 0);
    Num (-6#1) * Var 22 / (Site 0 * Site 0 * Site 0 * Site 0) + Num (2#1) / (Site 0 * Site 0 * Site 0);
    Num (-6#1) * Var 22 / (Site 0 * Site 0 * Site 0 * Site 0)]]];
    [[[Num (-6#1) * Var 20 / (Site 0 * Site 0 * Site 0 * Site 0) + Num (2#1) / (Site 0 * Site 0 * Site 0) + Num (2#1) / (Site 0 * Site 0 * Site 0) + Num (2#1) / (Site 0 * Site 0 * Site 0);
    Num (-6#1) * Var 20 / (Site 0 * Site 0 * Site 0 * Site 0) + Num (2#1) / (Site 0 * Site 0 * Site 0) + Num (2#1) / (Site 0 * Site 0 * Site 0);
    Num (-6#1) * Var 20 / (Site 0 * Site 0 * Site 0 * Site 0) + Num (2#1) / (Site 0 * Site 0 * Site 0) + Num (2#1) / (Site 0 * Site 0 * Site 0);
    Num (-6#1) * Var 20 / (Site 0 * Site 0 * Site 0 * Site 0) + Num (2#1) / (Site 0 * Site 0 * Site 0) + Num (2#1) / (Site 0 * Site 0 * Site 0)];
    [Num (-6#1) * Var 20 / (Site 0 * Site 0 * Site 0 * Site 0) + Num (2#1) / (Site 0 * Site 0 * Site 0) + Num (2#1) / (Site 0 * Site 0 * Site 0);
    Num (-6#1) * Var 20 / (Site 0 * Site 0 * Site 0 * Site 0) + Num (2#1) / (Site 0 * Site 0 * Site 0);
    Num (-6#1) * Var 20 / (Site 0 * Site 0 * Site 0 * Site 0) + Num (2#1) / (Site 0 * Site 0 * Site 0);
    Num (-6#1) * Var 20 / (Site 0 * Site 0 * Site 0 * Site 0) + Num (2#1) / (Site 0 * Site 0 * Site 0)];
    [Num (-6#1) * Var 20 / (Site 0 * Site 0 * Site 0 * Site 0) + Num (2#1) / (Site 0 * Site 0 * Site 0) + Num (2#1) / (Site 0 * Site 0 * Site 0);
    Num (-6#1) * Var 20 / (Site 0 * Site 0 * Site 0 * Site 0) + Num (2#1) / (Site 0 * Site 0 * Site 0);
    Num (-6#1) * Var 20 / (Site 0 * Site 0 * Site 0 * Site 0) + Num (2#1) / (Site 0 * Site 0 * Site 0);
    Num (-6#1) * Var 20 / (Site 0 * Site 0 * Site 0 * Site 0) + Num (2#1) / (Site 0 * Site 0 * Site 0)];
    [Num (-6#1) * Var 20 / (Site 0 * Site 0 * Site 0 * Site 0) + Num (2#1) / (Site 0 * Site 0 * Site 0) + Num (2#1) / (Site 0 * Site 0 * Site 0);
    Num (-6#1) * Var 20 / (Site 0 * Site 0 * Site 0 * Site 0) + Num (2#1) / (Site 0 * Site 0 * Site 0);
    Num (-6#1) * Var 20 / (Site 0 * Site 0 * Site 0 * Site 0) + Num (2#1) / (Site 0 * Site 0 * Site 0);
    Num (-6#1) * Var 20 / (Site 0 * Site 0 * Site 0 * Site 0) + Num (2#1) / (Site 0 * Site 0 * Site 0)]];
    [[Num (-6#1) * Var 20 / (Site 0 * Site 0 * Site 0 * Site 0) + Num (2#1) / (Site 0 * Site 0 * Site 0) + Num (2#1) / (Site 0 * Site 0 * Site 0);
    Num (-6#1) * Var 20 / (Site 0 * Site 0 * Site 0 * Site 0) + Num (2#1) / (Site 0 * Site 0 * Site 0);
    Num (-6#1) * Var 20 / (Site 0 * Site 0 * Site 0 * Site 0) + Num (2#1) / (Site 0 * Site 0 * Site 0);
    Num (-6#1) * Var 20 / (Site 0 * Site 0 * Site 0 * Site 0) + Num (2#1) / (Site 0 * Site 0 * Site 0)];
    [Num (-6#1) * Var 20 / (Site 0 * Site 0 * Site 0 * Site 0) + Num (2#1) / (Site 0 * Site 0 * Site 0);
    Num (-6#1) * Var 20 / (Site 0 * Site 0 * Site 0 * Site 0);
    Num (-6#1) * Var 20 / (Site 0 * Site 0 * Site 0 * Site 0);
    Num (-6#1) * Var 20 / (Site 0 * Site 0 * Site 0 * Site 0)];
    [Num (-6#1) * Var 20 / (Site 0 * Site 0 * Site 0 * Site 0) + Num (2#1) / (Site 0 * Site 0 * Site 0);
    Num (-6#1) * Var 20 / (Site 0 * Site 0 * Site 0 * Site 0);
    Num (-6#1) * Var 20 / (Site 0 * Site 0 * Site 0 * Site 0);
    Num (-6#1) * Var 20 / (Site 0 * Site 0 * Site 0 * Site 0)];
    [Num (-6#1) * Var 20 / (Site 0 * Site 0 * Site 0 * Site 0) + Num (2#1) / (Site 0 * Site 0 * Site 0);
    Num (-6#1) * Var 20 / (Site 0 * Site 0 * Site 0 * Site 0);
    Num (-6#1) * Var 20 / (Site 0 * Site 0 * Site 0 * Site 0);
    Num (-6#1) * Var 20 / (Site 0 * Site 0 * Site 0 * Site 0)]];
    [[Num (-6#1) * Var 20 / (Site 0 * Site 0 * Site 0 * Site 0) + Num (2#1) / (Site 0 * Site 0 * Site 0) + Num (2#1) / (Site 0 * Site 0 * Site 0);
    Num (-6#1) * Var 20 / (Site 0 * Site 0 * Site 0 * Site 0) + Num (2#1) / (Site 0 * Site 0 * Site 0);
    Num (-6#1) * Var 20 / (Site 0 * Site 0 * Site 0 * Site 0) + Num (2#1) / (Site 0 * Site 0 * Site 0);
    Num (-6#1) * Var 20 / (Site 0 * Site 0 * Site 0 * Site 0) + Num (2#1) / (Site 0 * Site 0 * Site 0)];
    [Num (-6#1) * Var 20 / (Site 0 * Site 0 * Site 0 * Site 0) + Num (2#1) / (Site 0 * Site 0 * Site 0);
    Num (-6#1) * Var 20 / (Site 0 * Site 0 * Site 0 * Site 0);
    Num (-6#1) * Var 20 / (Site 0 * Site 0 * Site 0 * Site 0);
    Num (-6#1) * Var 20 / (Site 0 * Site 0 * Site 0 * Site 0)];
    [Num (-6#1) * Var 20 / (Site 0 * Site 0 * Site 0 * Site 0) + Num (2#1) / (Site 0 * Site 0 * Site 0);
    Num (-6#1) * Var 20 / (Site 0 * Site 0 * Site 0 * Site 0);
    Num (-6#1) * Var 20 / (Site 0 * Site 0 * Site 0 * Site 0);
    Num (-6#1) * Var 20 / (Site 0 * Site 0 * Site 0 * Site 0)];
    [Num (-6#1) * Var 20 / (Site 0 * Site 0 * Site 0 * Site 0) + Num (2#1) / (Site 0 * Site 0 * Site 0);
    Num (-6#1) * Var 20 / (Site 0 * Site 0 * Site 0 * Site 0);
    Num (-6#1) * Var 20 / (Site 0 * Site 0 * Site 0 * Site 0);
    Num (-6#1) * Var 20 / (Site 0 * Site 0 * Site 0 * Site 0)]];
    [[Num (-6#1) * Var 20 / (Site 0 * Site 0 * Site 0 * Site 0) + Num (2#1) / (Site 0 * Site 0 * Site 0) + Num (2#1) / (Site 0 * Site 0 * Site 0);
    Num (-6#1) * Var 20 / (Site 0 * Site 0 * Site 0 * Site 0) + Num (2#1) / (Site 0 * Site 0 * Site 0);
    Num (-6#1) * Var 20 / (Site 0 * Site 0 * Site 0 * Site 0) + Num (2#1) / (Site 0 * Site 0 * Site 0);
    Num (-6#1) * Var 20 / (Site 0 * Site 0 * Site 0 * Site 0) + Num (2#1) / (Site 0 * Site 0 * Site 0)];
    [Num (-6#1) * Var 20 / (Site 0 * Site 0 * Site 0 * Site 0) + Num (2#1) / (Site 0 * Site 0 * Site 0);
    Num (-6#1) * Var 20 / (Site 0 * Site 0 * Site 0 * Site 0);
    Num (-6#1) * Var 20 / (Site 0 * Site 0 * Site 0 * Site 0);
    Num (-6#1) * Var 20 / (Site 0 * Site 0 * Site 0 * Site 0)];
    [Num (-6#1) * Var 20 / (Site 0 * Site 0 * Site 0 * Site 0) + Num (2#1) / (Site 0 * Site 0 * Site 0);
    Num (-6#1) * Var 20 / (Site 0 * Site 0 * Site 0 * Site 0);
    Num (-6#1) * Var 20 / (Site 0 * Site 0 * Site 0 * Site 0);
    Num (-6#1) * Var 20 / (Site 0 * Site 0 * Site 0 * Site 0)];
    [Num (-6#1) * Var 20 / (Site 0 * Site 0 * Site 0 * Site 0) + Num (2#1) / (Site 0 * Site 0 * Site 0);
    Num (-6#1) * Var 20 / (Site 0 * Site 0 * Site 0 * Site 0);
    Num (-6#1) * Var 20 / (Site 0 * Site 0 * Site 0 * Site 0);
    Num (-6#1) * Var 20 / (Site 0 * Site 0 * Site 0 * Site 0)]]];
    [[[Num (-6#1) * Var 23 / (Site 0 * Site 0 * Site 0 * Site 0);
    Num (-6#1) * Var 23 / (Site 0 * Site 0 * Site 0 * Site 0);
    Num (-6#1) * Var 23 / (Site 0 * Site 0 * Site 0 * Site 0);
    Num (-6#1) * Var 23 / (Site 0 * Site 0 * Site 0 * Site 0) + Num (2#1) / (Site 0 * Site 0 * Site 0)];
    [Num (-6#1) * Var 23 / (Site 0 * Site 0 * Site 0 * Site 0);
    Num (-6#1) * Var 23 / (Site 0 * Site 0 * Site 0 * Site 0);
    Num (-6#1) * Var 23 / (Site 0 * Site 0 * Site 0 * Site 0);
    Num (-6#1) * Var 23 / (Site 0 * Site 0 * Site 0 * Site 0) + Num (2#1) / (Site 0 * Site 0 * Site 0)];
    [Num (-6#1) * Var 23 / (Site 0 * Site 0 * Site 0 * Site 0);
    Num (-6#1) * Var 23 / (Site 0 * Site 0 * Site 0 * Site 0);
    Num (-6#1) * Var 23 / (Site 0 * Site 0 * Site 0 * Site 0);
    Num (-6#1) * Var 23 / (Site 0 * Site 0 * Site 0 * Site 0) + Num (2#1) / (Site 0 * Site 0 * Site 0)];
    [Num (-6#1) * Var 23 / (Site 0 * Site 0 * Site 0 * Site 0) + Num (2#1) / (Site 0 * Site 0 * Site 0);
    Num (-6#1) * Var 23 / (Site 0 * Site 0 * Site 0 * Site 0) + Num (2#1) / (Site 0 * Site 0 * Site 0);
    Num (-6#1) * Var 23 / (Site 0 * Site 0 * Site 0 * Site 0) + Num (2#1) / (Site 0 * Site 0 * Site 0);
    Num (-6#1) * Var 23 / (Site 0 * Site 0 * Site 0 * Site 0) + Num (2#1) / (Site 0 * Site 0 * Site 0) + Num (2#1) / (Site 0 * Site 0 * Site 0)]];
    [[Num (-6#1) * Var 23 / (Site 0 * Site 0 * Site 0 * Site 0);
    Num (-6#1) * Var 23 / (Site 0 * Site 0 * Site 0 * Site 0);
    Num (-6#1) * Var 23 / (Site 0 * Site 0 * Site 0 * Site 0);
    Num (-6#1) * Var 23 / (Site 0 * Site 0 * Site 0 * Site 0) + Num (2#1) / (Site 0 * Site 0 * Site 0)];
    [Num (-6#1) * Var 23 / (Site 0 * Site 0 * Site 0 * Site 0);
    Num (-6#1) * Var 23 / (Site 0 * Site 0 * Site 0 * Site 0);
    Num (-6#1) * Var 23 / (Site 0 * Site 0 * Site 0 * Site 0);
    Num (-6#1) * Var 23 / (Site 0 * Site 0 * Site 0 * Site 0) + Num (2#1) / (Site 0 * Site 0 * Site 0)];
    [Num (-6#1) * Var 23 / (Site 0 * Site 0 * Site 0 * Site 0);
    Num (-6#1) * Var 23 / (Site 0 * Site 0 * Site 0 * Site 0);
    Num (-6#1) * Var 23 / (Site 0 * Site 0 * Site 0 * Site 0);
    Num (-6#1) * Var 23 / (Site 0 * Site 0 * Site 0 * Site 0) + Num (2#1) / (Site 0 * Site 0 * Site 0)];
    [Num (-6#1) * Var 23 / (Site 0 * Site 0 * Site 0 * Site 0) + Num (2#1) / (Site 0 * Site 0 * Site 0);
    Num (-6#1) * Var 23 / (Site 0 * Site 0 * Site 0 * Site 0) + Num (2#1) / (Site 0 * Site 0 * Site 0);
    Num (-6#1) * Var 23 / (Site 0 * Site 0 * Site 0 * Site 0) + Num (2#1) / (Site 0 * Site 0 * Site 0);
    Num (-6#1) * Var 23 / (Site 0 * Site 0 * Site 0 * Site 0) + Num (2#1) / (Site 0 * Site 0 * Site 0) + Num (2#1) / (Site 0 * Site 0 * Site 0)]];
    [[Num (-6#1) * Var 23 / (Site 0 * Site 0 * Site 0 * Site 0);
    Num (-6#1) * Var 23 / (Site 0 * Site 0 * Site 0 * Site 0);
    Num (-6#1) * Var 23 / (Site 0 * Site 0 * Site 0 * Site 0);
    Num (-6#1) * Var 23 / (Site 0 * Site 0 * Site 0 * Site 0) + Num (2#1) / (Site 0 * Site 0 * Site 0)];
    [Num (-6#1) * Var 23 / (Site 0 * Site 0 * Site 0 * Site 0);
    Num (-6#1) * Var 23 / (Site 0 * Site 0 * Site 0 * Site 0);
    Num (-6#1) * Var 23 / (Site 0 * Site 0 * Site 0 * Site 0);
    Num (-6#1) * Var 23 / (Site 0 * Site 0 * Site 0 * Site 0) + Num (2#1) / (Site 0 * Site 0 * Site 0)];
    [Num (-6#1) * Var 23 / (Site 0 * Site 0 * Site 0 * Site 0);
    Num (-6#1) * Var 23 / (Site 0 * Site 0 * Site 0 * Site 0);
    Num (-6#1) * Var 23 / (Site 0 * Site 0 * Site 0 * Site 0);
    Num (-6#1) * Var 23 / (Site 0 * Site 0 * Site 0 * Site 0) + Num (2#1) / (Site 0 * Site 0 * Site 0)];
    [Num (-6#1) * Var 23 / (Site 0 * Site 0 * Site 0 * Site 0) + Num (2#1) / (Site 0 * Site 0 * Site 0);
    Num (-6#1) * Var 23 / (Site 0 * Site 0 * Site 0 * Site 0) + Num (2#1) / (Site 0 * Site 0 * Site 0);
    Num (-6#1) * Var 23 / (Site 0 * Site 0 * Site 0 * Site 0) + Num (2#1) / (Site 0 * Site 0 * Site 0);
    Num (-6#1) * Var 23 / (Site 0 * Site 0 * Site 0 * Site 0) + Num (2#1) / (Site 0 * Site 0 * Site 0) + Num (2#1) / (Site 0 * Site 0 * Site 0)]];
    [[Num (-6#1) * Var 23 / (Site 0 * Site 0 * Site 0 * Site 0) + Num (2#1) / (Site 0 * Site 0 * Site 0);
    Num (-6#1) * Var 23 / (Site 0 * Site 0 * Site 0 * Site 0) + Num (2#1) / (Site 0 * Site 0 * Site 0);
    Num (-6#1) * Var 23 / (Site 0 * Site 0 * Site 0 * Site 0) + Num (2#1) / (Site 0 * Site 0 * Site 0);
    Num (-6#1) * Var 23 / (Site 0 * Site 0 * Site 0 * Site 0) + Num (2#1) / (Site 0 * Site 0 * Site 0) + Num (2#1) / (Site 0 * Site 0 * Site 0)];
    [Num (-6#1) * Var 23 / (Site 0 * Site 0 * Site 0 * Site 0) + Num (2#1) / (Site 0 * Site 0 * Site 0);
    Num (-6#1) * Var 23 / (Site 0 * Site 0 * Site 0 * Site 0) + Num (2#1) / (Site 0 * Site 0 * Site 0);
    Num (-6#1) * Var 23 / (Site 0 * Site 0 * Site 0 * Site 0) + Num (2#1) / (Site 0 * Site 0 * Site 0);
    Num (-6#1) * Var 23 / (Site 0 * Site 0 * Site 0 * Site 0) + Num (2#1) / (Site 0 * Site 0 * Site 0) + Num (2#1) / (Site 0 * Site 0 * Site 0)];
    [Num (-6#1) * Var 23 / (Site 0 * Site 0 * Site 0 * Site 0) + Num (2#1) / (Site 0 * Site 0 * Site 0);
    Num (-6#1) * Var 23 / (Site 0 * Site 0 * Site 0 * Site 0) + Num (2#1) / (Site 0 * Site 0 * Site 0);
    Num (-6#1) * Var 23 / (Site 0 * Site 0 * Site 0 * Site 0) + Num (2#1) / (Site 0 * Site 0 * Site 0);
    Num (-6#1) * Var 23 / (Site 0 * Site 0 * Site 0 * Site 0) + Num (2#1) / (Site 0 * Site 0 * Site 0) + Num (2#1) / (Site 0 * Site 0 * Site 0)];
    [Num (-6#1) * Var 23 / (Site 0 * Site 0 * Site 0 * Site 0) + Num (2#1) / (Site 0 * Site 0 * Site 0) + Num (2#1) / (Site 0 * Site 0 * Site 0);
    Num (-6#1) * Var 23 / (Site 0 * Site 0 * Site 0 * Site 0) + Num (2#1) / (Site 0 * Site 0 * Site 0) + Num (2#1) / (Site 0 * Site 0 * Site 0);
    Num (-6#1) * Var 23 / (Site 0 * Site 0 * Site 0 * Site 0) + Num (2#1) / (Site 0 * Site 0 * Site 0) + Num (2#1) / (Site 0 * Site 0 * Site 0);
    Num (-6#1) * Var 23 / (Site 0 * Site 0 * Site 0 * Site 0) + Num (2#1) / (Site 0 * Site 0 * Site 0) + Num (2#1) / (Site 0 * Site 0 * Site 0) + Num (2#1) / (Site 0 * Site 0 * Site 0)]]]].
(** sources/rhombohedral.c 2226-2418: conRhm, inpMask THIRD, output x[i] from r *)
Definition Rhm_con_xr :=
  [Var 3;
    Num (1#1) - Var 2 - Var 3 - Var 4;
    Var 2;
    Var 4].
(** sources/rhombohedral.c 2226-2418: conRhm, inpMask THIRD, output dr[i][j] *)
Definition Rhm_con_dr :=
  [[Num (0#1);
    Num (1#1);
    Num (0#1)];
    [Num (-1#1);
    Num (-1#1);
    Num (-1#1)];
    [Num (1#1);
    Num (0#1);
    Num (0#1)];
    [Num (0#1);
    Num (0#1);
    Num (1#1)]].
(** sources/rhombohedral.c 2226-2418: x[i] from r is set to zero when it is smaller in absolute value than this number *)
Definition Rhm_con_snap : list (nat * Q) := [].
Definition conRhm : conv :=
  mkConv "rhombohedral" 4 3 Rhm_con_r Rhm_con_x Rhm_con_dm Rhm_con_d2m Rhm_con_d3m Rhm_con_xr Rhm_con_dr Rhm_con_snap.

(** sources/rhomsghiorso.c 2796-3007: conMsg, inpMask SECOND, output r[i] from m *)
Definition Msg_con_r :=
  [Var 22 / Site 0;
    Var 20 / Site 0;
    Var 23 / Site 0;
    Var 24 / Site 0].
(** sources/rhomsghiorso.c 2796-3007: conMsg, inpMask SECOND, output x[i] from m *)
Definition Msg_con_x :=
  [Var 20 / Site 0;
    Var 21 / Site 0;
    Var 22 / Site 0;
    Var 23 / Site 0;
    Var 24 / Site 0].
(** sources/rhomsghiorso.c 2796-3007: conMsg, inpMask SECOND, output dm[i][j] *)
Definition Msg_con_dm :=
  [[(- Var 22) / (Site 0 * Site 0);
    (- Var 22) / (Site 0 * Site 0);
    (Num (1#1) - Var 22 / Site 0) / Site 0;
    (- Var 22) / (Site 0 * Site 0);
    (- Var 22) / (Site 0 * Site 0)];
    [(Num (1#1) - Var 20 / Site 0) / Site 0;
    (- Var 20) / (Site 0 * Site 0);
    (- Var 20) / (Site 0 * Site 0);
    (- Var 20) / (Site 0 * Site 0);
    (- Var 20) / (Site 0 * Site 0)];
    [(- Var 23) / (Site 0 * Site 0);
    (- Var 23) / (Site 0 * Site 0);
    (- Var 23) / (Site 0 * Site 0);
    (Num (1#1) - Var 23 / Site 0) / Site 0;
    (- Var 23) / (Site 0 * Site 0)];
    [(- Var 24) / (Site 0 * Site 0);
    (- Var 24) / (Site 0 * Site 0);
    (- Var 24) / (Site 0 * Site 0);
    (- Var 24) / (Site 0 * Site 0);
    (Num (1#1) - Var 24 / Site 0) / Site 0]].
(** sources/rhomsghiorso.c 2796-3007: conMsg, inpMask SECOND, output d2m[i][j][k] *)
Definition Msg_con_d2m :=
  [[[Num (2#1) * Var 22 / (Site 0 * Site 0 * Site 0);
    Num (2#1) * Var 22 / (Site 0 * Site 0 * Site 0);
    Num (2#1) * Var 22 / (Site 0 * Site 0 * Site 0) - Num (1#1) / (Site 0 * Site 0);
    Num (2#1) * Var 22 / (Site 0 * Site 0 * Site 0);
    Num (2#1) * Var 22 / (Site 0 * Site 0 * Site 0)];
    [Num (2#1) * Var 22 / (Site 0 * Site 0 * Site 0);
    Num (2#1) * Var 22 / (Site 0 * Site 0 * Site 0);
    Num (2#1) * Var 22 / (Site 0 * Site 0 * Site 0) - Num (1#1) / (Site 0 * Site 0);
    Num (2#1) * Var 22 / (Site 0 * Site 0 * Site 0);
    Num (2#1) * Var 22 / (Site 0 * Site 0 * Site 0)];
    [Num (2#1) * Var 22 / (Site 0 * Site 0 * Site 0) - Num (1#1) / (Site 0 * Site 0);
    Num (2#1) * Var 22 / (Site 0 * Site 0 * Site 0) - Num (1#1) / (Site 0 * Site 0);
    Num (2#1) * Var 22 / (Site 0 * Site 0 * Site 0) - Num (1#1) / (Site 0 * Site 0) - Num (1#1) / (Site 0 * Site 0);
    Num (2#1) * Var 22 / (Site 0 * Site 0 * Site 0) - Num (1#1) / (Site 0 * Site 0);
    Num (2#1) * Var 22 / (Site 0 * Site 0 * Site 0) - Num (1#1) / (Site 0 * Site 0)];
    [Num (2#1) * Var 22 / (Site 0 * Site 0 * Site 0);
    Num (2#1) * Var 22 / (Site 0 * Site 0 * Site 0);
    Num (2#1) * Var 22 / (Site 0 * Site 0 * Site 0) - Num (1#1) / (Site 0 * Site 0);
    Num (2#1) * Var 22 / (Site 0 * Site 0 * Site 0);
    Num (2#1) * Var 22 / (Site 0 * Site 0 * Site 0)];
    [Num (2#1) * Var 22 / (Site 0 * Site 0 * Site 0);
    Num (2#1) * Var 22 / (Site 0 * Site 0 * Site 0);
    Num (2#1) * Var 22 / (Site 0 * Site 0 * Site 0) - Num (1#1) / (Site 0 * Site 0);
    Num (2#1) * Var 22 / (Site 0 * Site 0 * Site 0);
    Num (2#1) * Var 22 / (Site 0 * Site 0 * Site 0)]];
    [[Num (2#1) * Var 20 / (Site 0 * Site 0 * Site 0) - Num (1#1) / (Site 0 * Site 0) - Num (1#1) / (Site 0 * Site 0);
    Num (2#1) * Var 20 / (Site 0 * Site 0 * Site 0) - Num (1#1) / (Site 0 * Site 0);
    Num (2#1) * Var 20 / (Site 0 * Site 0 * Site 0) - Num (1#1) / (Site 0 * Site 0);
    Num (2#1) * Var 20 / (Site 0 * Site 0 * Site 0) - Num (1#1) / (Site 0 * Site 0);
    Num (2#1) * Var 20 / (Site 0 * Site 0 * Site 0) - Num (1#1) / (Site 0 * Site 0)];
    [Num (2#1) * Var 20 / (Site 0 * Site 0 * Site 0) - Num (1#1) / (Site 0 * Site 0);
    Num (2#1) * Var 20 / (Site 0 * Site 0 * Site 0);
    Num (2#1) * Var 20 / (Site 0 * Site 0 * Site 0);
    Num (2#1) * Var 20 / (Site 0 * Site 0 * Site 0);
    Num (2#1) * Var 20 / (Site 0 * Site 0 * Site 0)];
    [Num (2#1) * Var 20 / (Site 0 * Site 0 * Site 0) - Num (1#1) / (Site 0 * Site 0);
    Num (2#1) * Var 20 / (Site 0 * Site 0 * Site 0);
    Num (2#1) * Var 20 / (Site 0 * Site 0 * Site 0);
    Num (2#1) * Var 20 / (Site 0 * Site 0 * Site 0);
    Num (2#1) * Var 20 / (Site 0 * Site 0 * Site 0)];
    [Num (2#1) * Var 20 / (Site 0 * Site 0 * Site 0) - Num (1#1) / (Site 0 * Site 0);
    Num (2#1) * Var 20 / (Site 0 * Site 0 * Site 0);
    Num (2#1) * Var 20 / (Site 0 * Site 0 * Site 0);
    Num (2#1) * Var 20 / (Site 0 * Site 0 * Site 0);
    Num (2#1) * Var 20 / (Site 0 * Site 0 * Site 0)];
    [Num (2#1) * Var 20 / (Site 0 * Site 0 * Site 0) - Num (1#1) / (Site 0 * Site 0);
    Num (2#1) * Var 20 / (Site 0 * Site 0 * Site 0);
    Num (2#1) * Var 20 / (Site 0 * Site 0 * Site 0);
    Num (2#1) * Var 20 / (Site 0 * Site 0 * Site 0);
    Num (2#1) * Var 20 / (Site 0 * Site 0 * Site 0)]];
    [[Num (2#1) * Var 23 / (Site 0 * Site 0 * Site 0);
    Num (2#1) * Var 23 / (Site 0 * Site 0 * Site 0);
    Num (2#1) * Var 23 / (Site 0 * Site 0 * Site 0);
    Num (2#1) * Var 23 / (Site 0 * Site 0 * Site 0) - Num (1#1) / (Site 0 * Site 0);
    Num (2#1) * Var 23 / (Site 0 * Site 0 * Site 0)];
    [Num (2#1) * Var 23 / (Site 0 * Site 0 * Site 0);
    Num (2#1) * Var 23 / (Site 0 * Site 0 * Site 0);
    Num (2#1) * Var 23 / (Site 0 * Site 0 * Site 0);
    Num (2#1) * Var 23 / (Site 0 * Site 0 * Site 0) - Num (1#1) / (Site 0 * Site 0);
    Num (2#1) * Var 23 / (Site 0 * Site 0 * Site 0)];
    [Num (2#1) * Var 23 / (Site 0 * Site 0 * Site 0);
    Num (2#1) * Var 23 / (Site 0 * Site 0 * Site 0);
    Num (2#1) * Var 23 / (Site 0 * Site 0 * Site 0);
    Num (2#1) * Var 23 / (Site 0 * Site 0 * Site 0) - Num (1#1) / (Site 0 * Site 0);
    Num (2#1) * Var 23 / (Site 0 * Site 0 * Site 0)];
    [Num (2#1) * Var 23 / (Site 0 * Site 0 * Site 0) - Num (1#1) / (Site 0 * Site 0);
    Num (2#1) * Var 23 / (Site 0 * Site 0 * Site 0) - Num (1#1) / (Site 0 * Site 0);
    Num (2#1) * Var 23 / (Site 0 * Site 0 * Site 0) - Num (1#1) / (Site 0 * Site 0);
    Num (2#1) * Var 23 / (Site 0 * Site 0 * Site 0) - Num (1#1) / (Site 0 * Site 0) - Num (1#1) / (Site 0 * Site 0);
    Num (2#1) * Var 23 / (Site 0 * Site 0 * Site 0) - Num (1#1) / (Site 0 * Site 0)];
    [Num (2#1) * Var 23 / (Site 0 * Site 0 * Site 0);
    Num (2#1) * Var 23 / (Site 0 * Site 0 * Site 0);
    Num (2#1) * Var 23 / (Site 0 * Site 0 * Site 0);
    Num (2#1) * Var 23 / (Site 0 * Site 0 * Site 0) - Num (1#1) / (Site 0 * Site 0);
    Num (2#1) * Var 23 / (Site 0 * Site 0 * Site 0)]];
    [[Num (2#1) * Var 24 / (Site 0 * Site 0 * Site 0);
    Num (2#1) * Var 24 / (Site 0 * Site 0 * Site 0);
    Num (2#1) * Var 24 / (Site 0 * Site 0 * Site 0);
    Num (2#1) * Var 24 / (Site 0 * Site 0 * Site 0);
    Num (2#1) * Var 24 / (Site 0 * Site 0 * Site 0) - Num (1#1) / (Site 0 * Site 0)];
    [Num (2#1) * Var 24 / (Site 0 * Site 0 * Site 0);
    Num (2#1) * Var 24 / (Site 0 * Site 0 * Site 0);
    Num (2#1) * Var 24 / (Site 0 * Site 0 * Site 0);
    Num (2#1) * Var 24 / (Site 0 * Site 0 * Site 0);
    Num (2#1) * Var 24 / (Site 0 * Site 0 * Site 0) - Num (1#1) / (Site 0 * Site 0)];
    [Num (2#1) * Var 24 / (Site 0 * Site 0 * Site 0);
    Num (2#1) * Var 24 / (Site 0 * Site 0 * Site 0);
    Num (2#1) * Var 24 / (Site 0 * Site 0 * Site 0);
    Num (2#1) * Var 24 / (Site 0 * Site 0 * Site 0);
    Num (2#1) * Var 24 / (Site 0 * Site 0 * Site 0) - Num (1#1) / (Site 0 * Site 0)];
    [Num (2#1) * Var 24 / (Site 0 * Site 0 * Site 0);
    Num (2#1) * Var 24 / (Site 0 * Site 0 * Site 0);
    Num (2#1) * Var 24 / (Site 0 * Site 0 * Site 0);
    Num (2#1) * Var 24 / (Site 0 * Site 0 * Site 0);
    Num (2#1) * Var 24 / (Site 0 * Site 0 * Site 0) - Num (1#1) / (Site 0 * Site 0)];
    [Num (2#1) * Var 24 / (Site 0 * Site 0 * Site 0) - Num (1#1) / (Site 0 * Site 0);
    Num (2#1) * Var 24 / (Site 0 * Site 0 * Site 0) - Num (1#1) / (Site 0 * Site 0);
    Num (2#1) * Var 24 / (Site 0 * Site 0 * Site 0) - Num (1#1) / (Site 0 * Site 0);
    Num (2#1) * Var 24 / (Site 0 * Site 0 * Site 0) - Num (1#1) / (Site 0 * Site 0);
    Num (2#1) * Var 24 / (Site 0 * Site 0 * Site 0) - Num (1#1) / (Site 0 * Site 0) - Num (1#1) / (Site 0 * Site 0)]]].
(** sources/rhomsghiorso.c 2796-3007: conMsg, inpMask SECOND, output d3m[i][j][k][l] *)
Definition Msg_con_d3m :=
  [[[[Num (-6#1) * Var 22 / (Site 0 * Site 0 * Site 0 * Site 0);
    Num (-6#1) * Var 22 / (Site 0 * Site 0 * Site 0 * Site 0);
    Num (-6#1) * Var 22 / (Site 0 * Site 0 * Site 0 * Site 0) + Num (2#1) / (Site 0 * Site 0 * Site 0);
    Num (-6#1) * Var 22 / (Site 0 * Site 0 * Site 0 * Site 0);
    Num (-6#1) * Var 22 / (Site 0 * Site 0 * Site 0 * Site 0)];
    [Num (-6#1) * Var 22 / (Site 0 * Site 0 * Site 0 * Site 0);
    Num (-6#1) * Var 22 / (Site 0 * Site 0 * Site 0 * Site 0);
    Num (-6#1) * Var 22 / (Site 0 * Site 0 * Site 0 * Site 0) + Num (2#1) / (Site 0 * Site 0 * Site 0);
    Num (-6#1) * Var 22 / (Site 0 * Site 0 * Site 0 * Site 0);
    Num (-6#1) * Var 22 / (Site 0 * Site 0 * Site 0 * Site 0)];
    [Num (-6#1) * Var 22 / (Site 0 * Site 0 * Site 0 * Site 0) + Num (2#1) / (Site 0 * Site 0 * Site 0);
    Num (-6#1) * Var 22 / (Site 0 * Site 0 * Site 0 * Site 0) + Num (2#1) / (Site 0 * Site 0 * Site 0);
    Num (-6#1) * Var 22 / (Site 0 * Site 0 * Site 0 * Site 0) + Num (2#1) / (Site 0 * Site 0 * Site 0) + Num (2#1) / (Site 0 * Site 0 * Site 0);
    Num (-6#1) * Var 22 / (Site 0 * Site 0 * Site 0 * Site 0) + Num (2#1) / (Site 0 * Site 0 * Site 0);
    Num (-6#1) * Var 22 / (Site 0 * Site 0 * Site 0 * Site 0) + Num (2#1) / (Site 0 * Site 0 * Site 0)];
    [Num (-6#1) * Var 22 / (Site 0 * Site 0 * Site 0 * Site 0);
    Num (-6#1) * Var 22 / (Site 0 * Site 0 * Site 0 * Site 0);
    Num (-6#1) * Var 22 / (Site 0 * Site 0 * Site 0 * Site 0) + Num (2#1) / (Site 0 * Site 0 * Site 0);
    Num (-6#1) * Var 22 / (Site 0 * Site 0 * Site 0 * Site 0);
    Num (-6#1) * Var 22 / (Site 0 * Site 0 * Site 0 * Site 0)];
    [Num (-6#1) * Var 22 / (Site 0 * Site 0 * Site 0 * Site 0);
    Num (-6#1) * Var 22 / (Site 0 * Site 0 * Site 0 * Site 0);
    Num (-6#1) * Var 22 / (Site 0 * Site 0 * Site 0 * Site 0) + Num (2#1) / (Site 0 * Site 0 * Site 0);
    Num (-6#1) * Var 22 / (Site 0 * Site 0 * Site 0 * Site 0);
    Num (-6#1) * Var 22 / (Site 0 * Site 0 * Site 0 * Site 0)]];
    [[Num (-6#1) * Var 22 / (Site 0 * Site 0 * Site 0 * Site 0);
    Num (-6#1) * Var 22 / (Site 0 * Site 0 * Site 0 * Site 0);
    Num (-6#1) * Var 22 / (Site 0 * Site 0 * Site 0 * Site 0) + Num (2#1) / (Site 0 * Site 0 * Site 0);
    Num (-6#1) * Var 22 / (Site 0 * Site 0 * Site 0 * Site 0);
    Num (-6#1) * Var 22 / (Site 0 * Site 0 * Site 0 * Site 0)];
    [Num (-6#1) * Var 22 / (Site 0 * Site 0 * Site 0 * Site 0);
    Num (-6#1) * Var 22 / (Site 0 * Site 0 * Site 0 * Site 0);
    Num (-6#1) * Var 22 / (Site 0 * Site 0 * Site 0 * Site 0) + Num (2#1) / (Site 0 * Site 0 * Site 0);
    Num (-6#1) * Var 22 / (Site 0 * Site 0 * Site 0 * Site 0);
    Num (-6#1) * Var 22 / (Site 0 * Site 0 * Site 0 * Site 0)];
    [Num (-6#1) * Var 22 / (Site 0 * Site 0 * Site 0 * Site 0) + Num (2#1) / (Site 0 * Site 0 * Site 0);
    Num (-6#1) * Var 22 / (Site 0 * Site 0 * Site 0 * Site 0) + Num (2#1) / (Site 0 * Site 0 * Site 0);
    Num (-6#1) * Var 22 / (Site 0 * Site 0 * Site 0 * Site 0) + Num (2#1) / (Site 0 * Site 0 * Site 0) + Num (2#1) / (Site 0 * Site 0 * Site 0);
    Num (-6#1) * Var 22 / (Site 0 * Site 0 * Site 0 * Site 0) + Num (2#1) / (Site 0 * Site 0 * Site 0);
    Num (-6#1) * Var 22 / (Site 0 * Site 0 * Site 0 * Site 0) + Num (2#1) / (Site 0 * Site 0 * Site 0)];
    [Num (-6#1) * Var 22 / (Site 0 * Site 0 * Site 0 * Site 0);
    Num (-6#1) * Var 22 / (Site 0 * Site 0 * Site 0 * Site 0);
    Num (-6#1) * Var 22 / (Site 0 * Site 0 * Site 0 * Site 0) + Num (2#1) / (Site 0 * Site 0 * Site 0);
    Num (-6#1) * Var 22 / (Site 0 * Site 0 * Site 0 * Site 0);
    Num (-6#1) * Var 22 / (Site 0 * Site 0 * Site 0 * Site 0)];
    [Num (-6#1) * Var 22 / (Site 0 * Site 0 * Site 0 * Site 0);
    Num (-6#1) * Var 22 / (Site 0 * Site 0 * Site 0 * Site 0);
    Num (-6#1) * Var 22 / (Site 0 * Site 0 * Site 0 * Site 0) + Num (2#1) / (Site 0 * Site 0 * Site 0);
    Num (-6#1) * Var 22 / (Site 0 * Site 0 * Site 0 * Site 0);
    Num (-6#1) * Var 22 / (Site 0 * Site 0 * Site 0 * Site 0)]];
    [[Num (-6#1) * Var 22 / (Site 0 * Site 0 * Site 0 * Site 0) + Num (2#1) / (Site 0 * Site 0 * Site 0);
    Num (-6#1) * Var 22 / (Site 0 * Site 0 * Site 0 * Site 0) + Num (2#1) / (Site 0 * Site 0 * Site 0);
    Num (-6#1) * Var 22 / (Site 0 * Site 0 * Site 0 * Site 0) + Num (2#1) / (Site 0 * Site 0 * Site 0) + Num (2#1) / (Site 0 * Site 0 * Site 0);
    Num (-6#1) * Var 22 / (Site 0 * Site 0 * Site 0 * Site 0) + Num (2#1) / (Site 0 * Site 0 * Site 0);
    Num (-6#1) * Var 22 / (Site 0 * Site 0 * Site 0 * Site 0) + Num (2#1) / (Site 0 * Site 0 * Site 0)];
    [Num (-6#1) * Var 22 / (Site 0 * Site 0 * Site 0 * Site 0) + Num (2#1) / (Site 0 * Site 0 * Site 0);
    Num (-6#1) * Var 22 / (Site 0 * Site 0 * Site 0 * Site 0) + Num (2#1) / (Site 0 * Site 0 * Site 0);
    Num (-6#1) * Var 22 / (Site 0 * Site 0 * Site 0 * Site 0) + Num (2#1) / (Site 0 * Site 0 * Site 0) + Num (2#1) / (Site 0 * Site 0 * Site 0);
    Num (-6#1) * Var 22 / (Site 0 * Site 0 * Site 0 * Site 0) + Num (2#1) / (Site 0 * Site 0 * Site 0);
    Num (-6#1) * Var 22 / (Site 0 * Site 0 * Site 0 * Site 0) + Num (2#1) / (Site 0 * Site 0 * Site 0)];
    [Num (-6#1) * Var 22 / (Site 0 * Site 0 * Site 0 * Site 0) + Num (2#1) / (Site 0 * Site 0 * Site 0) + Num (2#1) / (Site 0 * Site 0 * Site 0);
    Num (-6#1) * Var 22 / (Site 0 * Site 0 * Site 0 * Site 0) + Num (2#1) / (Site 0 * Site 0 * Site 0) + Num (2#1) / (Site 0 * Site 0 * Site 0);
    Num (-6#1) * Var 22 / (Site 0 * Site 0 * Site 0 * Site 0) + Num (2#1) / (Site 0 * Site 0 * Site 0) + Num (2#1) / (Site 0 * Site 0 * Site 0) + Num (2#1) / (Site 0 * Site 0 * Site 0);
    Num (-6#1) * Var 22 / (Site 0 * Site 0 * Site 0 * Site 0) + Num (2#1) / (Site 0 * Site 0 * Site 0) + Num (2#1) / (Site 0 * Site 0 * Site 0);
    Num (-6#1) * Var 22 / (Site 0 * Site 0 * Site 0 * Site 0) + Num (2#1) / (Site 0 * Site 0 * Site 0) + Num (2#1) / (Site 0 * Site 0 * Site 0)];
    [Num (-6#1) * Var 22 / (Site 0 * Site 0 * Site 0 * Site 0) + Num (2#1) / (Site 0 * Site 0 * Site 0);
    Num (-6#1) * Var 22 / (Site 0 * Site 0 * Site 0 * Site 0) + Num (2#1) / (Site 0 * Site 0 * Site 0);
    Num (-6#1) * Var 22 / (Site 0 * Site 0 * Site 0 * Site 0) + Num (2#1) / (Site 0 * Site 0 * Site 0) + Num (2#1) / (Site 0 * Site 0 * Site 0);
    Num (-6#1) * Var 22 / (Site 0 * Site 0 * Site 0 * Site 0) + Num (2#1) / (Site 0 * Site 0 * Site 0);
    Num (-6#1) * Var 22 / (Site 0 * Site 0 * Site 0 * Site 0) + Num (2#1) / (Site 0 * Site 0 * Site 0)];
    [Num (-6#1) * Var 22 / (Site 0 * Site 0 * Site 0 * Site 0) + Num (2#1) / (Site 0 * Site 0 * Site 0);
    Num (-6#1) * Var 22 / (Site 0 * Site 0 * Site 0 * Site 0) + Num (2#1) / (Site 0 * Site 0 * Site 0);
    Num (-6#1) * Var 22 / (Site 0 * Site 0 * Site 0 * Site 0) + Num (2#1) / (Site 0 * Site 0 * Site 0) + Num (2#1) / (Site 0 * Site 0 * Site 0);
    Num (-6#1) * Var 22 / (Site 0 * Site 0 * Site 0 * Site 0) + Num (2#1) / (Site 0 * Site 0 * Site 0);
    Num (-6#1) * Var 22 / (Site 0 * Site 0 * Site 0 * Site 0) + Num (2#1) / (Site 0 * Site 0 * Site 0)]];
    [[Num (-6#1) * Var 22 / (Site 0 * Site 0 * Site 0 * Site 0);
    Num (-6#1) * Var 22 / (Site 0 * Site 0 * Site 0 * Site 0);
    Num (-6#1) * Var 22 / (Site 0 * Site 0 * Site 0 * Site 0) + Num (2#1) / (Site 0 * Site 0 * Site 0);
    Num (-6#1) * Var 22 / (Site 0 * Site 0 * Site 0 * Site 0);
    Num (-6#1) * Var 22 / (Site 0 * Site 0 * Site 0 * Site 0)];
    [Num (-6#1) * Var 22 / (Site 0 * Site 0 * Site 0 * Site 0);
    Num (-6#1) * Var 22 / (Site 0 * Site 0 * Site 0 * Site 0);
    Num (-6#1) * Var 22 / (Site 0 * Site 0 * Site 0 * Site 0) + Num (2#1) / (Site 0 * Site 0 * Site 0);
    Num (-6#1) * Var 22 / (Site 0 * Site 0 * Site 0 * Site 0);
    Num (-6#1) * Var 22 / (Site 0 * Site 0 * Site 0 * Site 0)];
    [Num (-6#1) * Var 22 / (Site 0 * Site 0 * Site 0 * Site 0) + Num (2#1) / (Site 0 * Site 0 * Site 0);
    Num (-6#1) * Var 22 / (Site 0 * Site 0 * Site 0 * Site 0) + Num (2#1) / (Site 0 * Site 0 * Site 0);
    Num (-6#1) * Var 22 / (Site 0 * Site 0 * Site 0 * Site 0) + Num (2#1) / (Site 0 * Site 0 * Site 0) + Num (2#1) / (Site 0 * Site 0 * Site 0);
    Num (-6#1) * Var 22 / (Site 0 * Site 0 * Site 0 * Site 0) + Num (2#1) / (Site 0 * Site 0 * Site 0);
    Num (-6#1) * Var 22 / (Site 0 * Site 0 * Site 0 * Site 0) + Num (2#1) / (Site 0 * Site 0 * Site 0)];
    [Num (-6#1) * Var 22 / (Site 0 * Site 0 * Site 0 * Site 0);
    Num (-6#1) * Var 22 / (Site 0 * Site 0 * Site 0 * Site 0);
    Num (-6#1) * Var 22 / (Site 0 * Site 0 * Site 0 * Site 0) + Num (2#1) / (Site 0 * Site 0 * Site 0);
    Num (-6#1) * Var 22 / (Site 0 * Site 0 * Site 0 * Site 0);
    Num (-6#1) * Var 22 / (Site 0 * Site 0 * Site 0 * Site 0)];
    [Num (-6#1) * Var 22 / (Site 0 * Site 0 * Site 0 * Site 0);
    Num (-6#1) * Var 22 / (Site 0 * Site 0 * Site 0 * Site 0);
    Num (-6#1) * Var 22 / (Site 0 * Site 0 * Site 0 * Site 0) + Num (2#1) / (Site 0 * Site 0 * Site 0);
    Num (-6#1) * Var 22 / (Site 0 * Site 0 * Site 0 * Site 0);
    Num (-6#1) * Var 22 / (Site 0 * Site 0 * Site 0 * Site 0)]];
    [[Num (-6#1) * Var 22 / (Site 0 * Site 0 * Site 0 * Site 0);
    Num (-6#1) * Var 22 / (Site 0 * Site 0 * Site 0 * Site 0);
    Num (-6#1) * Var 22 / (Site 0 * Site 0 * Site 0 * Site 0) + Num (2#1) / (Site 0 * Site 0 * Site 0);
    Num (-6#1) * Var 22 / (Site 0 * Site 0 * Site 0 * Site 0);
    Num (-6#1) * Var 22 / (Site 0 * Site 0 * Site 0 * Site 0)];
    [Num (-6#1) * Var 22 / (Site 0 * Site 0 * Site 0 * Site 0);
    Num (-6#1) * Var 22 / (Site 0 * Site 0 * Site 0 * Site 0);
    Num (-6#1) * Var 22 / (Site 0 * Site 0 * Site 0 * Site 0) + Num (2#1) / (Site 0 * Site 0 * Site 0);
    Num (-6#1) * Var 22 / (Site 0 * Site 0 * Site 0 * Site 0);
    Num (-6#1) * Var 22 / (Site 0 * Site 0 * Site 0 * Site 0)];
    [Num (-6#1) * Var 22 / (Site 0 * Site 0 * Site 0 * Site 0) + Num (2#1) / (Site 0 * Site 0 * Site 0);
    Num (-6#1) * Var 22 / (Site 0 * Site 0 * Site 0 * Site 0) + Num (2#1) / (Site 0 * Site 0 * Site 0);
    Num (-6#1) * Var 22 / (Site 0 * Site 0 * Site 0 * Site 0) + Num (2#1) / (Site 0 * Site 0 * Site 0) + Num (2#1) / (Site 0 * Site 0 * Site 0);
    Num (-6#1) * Var 22 / (Site 0 * Site 0 * Site 0 * Site 0) + Num (2#1) / (Site 0 * Site 0 * Site 0);
    Num (-6#1) * Var 22 / (Site 0 * Site 0 * Site 0 * Site 0) + Num (2#1) / (Site 0 * Site 0 * Site 0)];
    [Num (-6#1) * Var 22 / (Site 0 * Site 0 * Site 0 * Site 0);
    Num (-6#1) * Var 22 / (Site 0 * Site 0 * Site 0 * Site 0);
    Num (-6#1) * Var 22 / (Site 0 * Site 0 * Site 0 * Site 0) + Num (2#1) / (Site 0 * Site 0 * Site 0);
    Num (-6#1) * Var 22 / (Site 0 * Site 0 * Site 0 * Site 0);
    Num (-6#1) * Var 22 / (Site 0 * Site 0 * Site 0 * Site 0)];
    [Num (-6#1) * Var 22 / (Site 0 * Site 0 * Site 0 * Site 0);
    Num (-6#1) * Var 22 / (Site 0 * Site 0 * Site 0 * Site 0);
    Num (-6#1) * Var 22 / (Site 0 * Site 0 * Site 0 * Site 0) + Num (2#1) / (Site 0 * Site 0 * Site 0);
    Num (-6#1) * Var 22 / (Site 0 * Site 0 * Site 0 * Site 0);
    Num (-6#1) * Var 22 / (Site 0 * Site 0 * Site 0 * Site 0)]]];
    [[[Num (-6#1) * Var 20 / (Site 0 * Site 0 * Site 0 * Site 0) + Num (2#1) / (Site 0 * Site 0 * Site 0) + Num (2#1) / (Site 0 * Site 0 * Site 0) + Num (2#1) / (Site 0 * Site 0 * Site 0);
    Num (-6#1) * Var 20 / (Site 0 * Site 0 * Site 0 * Site 0) + Num (2#1) / (Site 0 * Site 0 * Site 0) + Num (2#1) / (Site 0 * Site 0 * Site 0);
    Num (-6#1) * Var 20 / (Site 0 * Site 0 * Site 0 * Site 0) + Num (2#1) / (Site 0 * Site 0 * Site 0) + Num (2#1) / (Site 0 * Site 0 * Site 0);
    Num (-6#1) * Var 20 / (Site 0 * Site 0 * Site 0 * Site 0) + Num (2#1) / (Site 0 * Site 0 * Site 0) + Num (2#1) / (Site 0 * Site 0 * Site 0);
    Num (-6#1) * Var 20 / (Site 0 * Site 0 * Site 0 * Site 0) + Num (2#1) / (Site 0 * Site 0 * Site 0) + Num (2#1) / (Site 0 * Site 0 * Site 0)];
    [Num (-6#1) * Var 20 / (Site 0 * Site 0 * Site 0 * Site 0) + Num (2#1) / (Site 0 * Site 0 * Site 0) + Num (2#1) / (Site 0 * Site 0 * Site 0);
    Num (-6#1) * Var 20 / (Site 0 * Site 0 * Site 0 * Site 0) + Num (2#1) / (Site 0 * Site 0 * Site 0);
    Num (-6#1) * Var 20 / (Site 0 * Site 0 * Site 0 * Site 0) + Num (2#1) / (Site 0 * Site 0 * Site 0);
    Num (-6#1) * Var 20 / (Site 0 * Site 0 * Site 0 * Site 0) + Num (2#1) / (Site 0 * Site 0 * Site 0);
    Num (-6#1) * Var 20 / (Site 0 * Site 0 * Site 0 * Site 0) + Num (2#1) / (Site 0 * Site 0 * Site 0)];
    [Num (-6#1) * Var 20 / (Site 0 * Site 0 * Site 0 * Site 0) + Num (2#1) / (Site 0 * Site 0 * Site 0) + Num (2#1) / (Site 0 * Site 0 * Site 0);
    Num (-6#1) * Var 20 / (Site 0 * Site 0 * Site 0 * Site 0) + Num (2#1) / (Site 0 * Site 0 * Site 0);
    Num (-6#1) * Var 20 / (Site 0 * Site 0 * Site 0 * Site 0) + Num (2#1) / (Site 0 * Site 0 * Site 0);
    Num (-6#1) * Var 20 / (Site 0 * Site 0 * Site 0 * Site 0) + Num (2#1) / (Site 0 * Site 0 * Site 0);
    Num (-6#1) * Var 20 / (Site 0 * Site 0 * Site 0 * Site 0) + Num (2#1) / (Site 0 * Site 0 * Site 0)];
    [Num (-6#1) * Var 20 / (Site 0 * Site 0 * Site 0 * Site 0) + Num (2#1) / (Site 0 * Site 0 * Site 0) + Num (2#1) / (Site 0 * Site 0 * Site 0);
    Num (-6#1) * Var 20 / (Site 0 * Site 0 * Site 0 * Site 0) + Num (2#1) / (Site 0 * Site 0 * Site 0);
    Num (-6#1) * Var 20 / (Site 0 * Site 0 * Site 0 * Site 0) + Num (2#1) / (Site 0 * Site 0 * Site 0);
    Num (-6#1) * Var 20 / (Site 0 * Site 0 * Site 0 * Site 0) + Num (2#1) / (Site 0 * Site 0 * Site 0);
    Num (-6#1) * Var 20 / (Site 0 * Site 0 * Site 0 * Site 0) + Num (2#1) / (Site 0 * Site 0 * Site 0)];
    [Num (-6#1) * Var 20 / (Site 0 * Site 0 * Site 0 * Site 0) + Num (2#1) / (Site 0 * Site 0 * Site 0) + Num (2#1) / (Site 0 * Site 0 * Site 0);
    Num (-6#1) * Var 20 / (Site 0 * Site 0 * Site 0 * Site 0) + Num (2#1) / (Site 0 * Site 0 * Site 0);
    Num (-6#1) * Var 20 / (Site 0 * Site 0 * Site 0 * Site 0) + Num (2#1) / (Site 0 * Site 0 * Site 0);
    Num (-6#1) * Var 20 / (Site 0 * Site 0 * Site 0 * Site 0) + Num (2#1) / (Site 0 * Site 0 * Site 0);
    Num (-6#1) * Var 20 / (Site 0 * Site 0 * Site 0 * Site 0) + Num (2#1) / (Site 0 * Site 0 * Site 0)]];
    [[Num (-6#1) * Var 20 / (Site 0 * Site 0 * Site 0 * Site 0) + Num (2#1) / (Site 0 * Site 0 * Site 0) + Num (2#1) / (Site 0 * Site 0 * Site 0);
    Num (-6#1) * Var 20 / (Site 0 * Site 0 * Site 0 * Site 0) + Num (2#1) / (Site 0 * Site 0 * Site 0);
    Num (-6#1) * Var 20 / (Site 0 * Site 0 * Site 0 * Site 0) + Num (2#1) / (Site 0 * Site 0 * Site 0);
    Num (-6#1) * Var 20 / (Site 0 * Site 0 * Site 0 * Site 0) + Num (2#1) / (Site 0 * Site 0 * Site 0);
    Num (-6#1) * Var 20 / (Site 0 * Site 0 * Site 0 * Site 0) + Num (2#1) / (Site 0 * Site 0 * Site 0)];
    [Num (-6#1) * Var 20 / (Site 0 * Site 0 * Site 0 * Site 0) + Num (2#1) / (Site 0 * Site 0 * Site 0);
    Num (-6#1) * Var 20 / (Site 0 * Site 0 * Site 0 * Site 0);
    Num (-6#1) * Var 20 / (Site 0 * Site 0 * Site 0 * Site 0);
    Num (-6#1) * Var 20 / (Site 0 * Site 0 * Site 0 * Site 0);
    Num (-6#1) * Var 20 / (Site 0 * Site 0 * Site 0 * Site 0)];
    [Num (-6#1) * Var 20 / (Site 0 * Site 0 * Site 0 * Site 0) + Num (2#1) / (Site 0 * Site 0 * Site 0);
    Num (-6#1) * Var 20 / (Site 0 * Site 0 * Site 0 * Site 0);
    Num (-6#1) * Var 20 / (Site 0 * Site 0 * Site 0 * Site 0);
    Num (-6#1) * Var 20 / (Site 0 * Site 0 * Site 0 * Site 0);
    Num (-6#1) * Var 20 / (Site 0 * Site 0 * Site 0 * Site 0)];
    [Num (-6#1) * Var 20 / (Site 0 * Site 0 * Site 0 * Site 0) + Num (2#1) / (Site 0 * Site 0 * Site 0);
    Num (-6#1) * Var 20 / (Site 0 * Site 0 * Site 0 * Site 0);
    Num (-6#1) * Var 20 / (Site 0 * Site 0 * Site 0 * Site 0);
    Num (-6#1) * Var 20 / (Site 0 * Site 0 * Site 0 * Site 0);
    Num (-6#1) * Var 20 / (Site 0 * Site 0 * Site 0 * Site 0)];
    [Num (-6#1) * Var 20 / (Site 0 * Site 0 * Site 0 * Site 0) + Num (2#1) / (Site 0 * Site 0 * Site 0);
    Num (-6#1) * Var 20 / (Site 0 * Site 0 * Site 0 * Site 0);
    Num (-6#1) * Var 20 / (Site 0 * Site 0 * Site 0 * Site 0);
    Num (-6#1) * Var 20 / (Site 0 * Site 0 * Site 0 * Site 0);
    Num (-6#1) * Var 20 / (Site 0 * Site 0 * Site 0 * Site 0)]];
    [[Num (-6#1) * Var 20 / (Site 0 * Site 0 * Site 0 * Site 0) + Num (2#1) / (Site 0 * Site 0 * Site 0) + Num (2#1) / (Site 0 * Site 0 * Site 0);
    Num (-6#1) * Var 20 / (Site 0 * Site 0 * Site 0 * Site 0) + Num (2#1) / (Site 0 * Site 0 * Site 0);
    Num (-6#1) * Var 20 / (Site 0 * Site 0 * Site 0 * Site 0) + Num (2#1) / (Site 0 * Site 0 * Site 0);
    Num (-6#1) * Var 20 / (Site 0 * Site 0 * Site 0 * Site 0) + Num (2#1) / (Site 0 * Site 0 * Site 0);
    Num (-6#1) * Var 20 / (Site 0 * Site 0 * Site 0 * Site 0) + Num (2#1) / (Site 0 * Site 0 * Site 0)];
    [Num (-6#1) * Var 20 / (Site 0 * Site 0 * Site 0 * Site 0) + Num (2#1) / (Site 0 * Site 0 * Site 0);
    Num (-6#1) * Var 20 / (Site 0 * Site 0 * Site 0 * Site 0);
    Num (-6#1) * Var 20 / (Site 0 * Site 0 * Site 0 * Site 0);
    Num (-6#1) * Var 20 / (Site 0 * Site 0 * Site 0 * Site 0);
    Num (-6#1) * Var 20 / (Site 0 * Site 0 * Site 0 * Site 0)];
    [Num (-6#1) * Var 20 / (Site 0 * Site 0 * Site 0 * Site 0) + Num (2#1) / (Site 0 * Site 0 * Site 0);
    Num (-6#1) * Var 20 / (Site 0 * Site 0 * Site 0 * Site 0);
    Num (-6#1) * Var 20 / (Site 0 * Site 0 * Site 0 * Site 0);
    Num (-6#1) * Var 20 / (Site 0 * Site 0 * Site 0 * Site 0);
    Num (-6#1) * Var 20 / (Site 0 * Site 0 * Site 0 * Site 0)];
    [Num (-6#1) * Var 20 / (Site 0 * Site 0 * Site 0 * Site 0) + Num (2#1) / (Site 0 * Site 0 * Site 0);
    Num (-6#1) * Var 20 / (Site 0 * Site 0 * Site 0 * Site 0);
    Num (-6#1) * Var 20 / (Site 0 * Site 0 * Site 0 * Site 0);
    Num (-6#1) * Var 20 / (Site 0 * Site 0 * Site 0 * Site 0);
    Num (-6#1) * Var 20 / (Site 0 * Site 0 * Site 0 * Site 0)];
    [Num (-6#1) * Var 20 / (Site 0 * Site 0 * Site 0 * Site 0) + Num (2#1) / (Site 0 * Site 0 * Site 0);
    Num (-6#1) * Var 20 / (Site 0 * Site 0 * Site 0 * Site 0);
    Num (-6#1) * Var 20 / (Site 0 * Site 0 * Site 0 * Site 0);
    Num (-6#1) * Var 20 / (Site 0 * Site 0 * Site 0 * Site 0);
    Num (-6#1) * Var 20 / (Site 0 * Site 0 * Site 0 * Site 0)]];
    [[Num (-6#1) * Var 20 / (Site 0 * Site 0 * Site 0 * Site 0) + Num (2#1) / (Site 0 * Site 0 * Site 0) + Num (2#1) / (Site 0 * Site 0 * Site 0);
    Num (-6#1) * Var 20 / (Site 0 * Site 0 * Site 0 * Site 0) + Num (2#1) / (Site 0 * Site 0 * Site 0);
    Num (-6#1) * Var 20 / (Site 0 * Site 0 * Site 0 * Site 0) + Num (2#1) / (Site 0 * Site 0 * Site 0);
    Num (-6#1) * Var 20 / (Site 0 * Site 0 * Site 0 * Site 0) + Num (2#1) / (Site 0 * Site 0 * Site 0);
    Num (-6#1) * Var 20 / (Site 0 * Site 0 * Site 0 * Site 0) + Num (2#1) / (Site 0 * Site 0 * Site 0)];
    [Num (-6#1) * Var 20 / (Site 0 * Site 0 * Site 0 * Site 0) + Num (2#1) / (Site 0 * Site 0 * Site 0);
    Num (-6#1) * Var 20 / (Site 0 * Site 0 * Site 0 * Site 0);
    Num (-6#1) * Var 20 / (Site 0 * Site 0 * Site 0 * Site 0);
    Num (-6#1) * Var 20 / (Site 0 * Site 0 * Site 0 * Site 0);
    Num (-6#1) * Var 20 / (Site 0 * Site 0 * Site 0 * Site 0)];
    [Num (-6#1) * Var 20 / (Site 0 * Site 0 * Site 0 * Site 0) + Num (2#1) / (Site 0 * Site 0 * Site 0);
    Num (-6#1) * Var 20 / (Site 0 * Site 0 * Site 0 * Site 0);
    Num (-6#1) * Var 20 / (Site 0 * Site 0 * Site 0 * Site 0);
    Num (-6#1) * Var 20 / (Site 0 * Site 0 * Site 0 * Site 0);
    Num (-6#1) * Var 20 / (Site 0 * Site 0 * Site 0 * Site 0)];
    [Num (-6#1) * Var 20 / (Site 0 * Site 0 * Site 0 * Site 0) + Num (2#1) / (Site 0 * Site 0 * Site 0);
    Num (-6#1) * Var 20 / (Site 0 * Site 0 * Site 0 * Site 0);
    Num (-6#1) * Var 20 / (Site 0 * Site 0 * Site 0 * Site 0);
    Num (-6#1) * Var 20 / (Site 0 * Site 0 * Site 0 * Site 0);
    Num (-6#1) * Var 20 / (Site 0 * Site 0 * Site 0 * Site 0)];
    [Num (-6#1) * Var 20 / (Site 0 * Site 0 * Site 0 * Site 0) + Num (2#1) / (Site 0 * Site 0 * Site 0);
    Num (-6#1) * Var 20 / (Site 0 * Site 0 * Site 0 * Site 0);
    Num (-6#1) * Var 20 / (Site 0 * Site 0 * Site 0 * Site 0);
    Num (-6#1) * Var 20 / (Site 0 * Site 0 * Site 0 * Site 0);
    Num (-6#1) * Var 20 / (Site 0 * Site 0 * Site 0 * Site 0)]];
    [[Num (-6#1) * Var 20 / (Site 0 * Site 0 * Site 0 * Site 0) + Num (2#1) / (Site 0 * Site 0 * Site 0) + Num (2#1) / (Site 0 * Site 0 * Site 0);
    Num (-6#1) * Var 20 / (Site 0 * Site 0 * Site 0 * Site 0) + Num (2#1) / (Site 0 * Site 0 * Site 0);
    Num (-6#1) * Var 20 / (Site 0 * Site 0 * Site 0 * Site 0) + Num (2#1) / (Site 0 * Site 0 * Site 0);
    Num (-6#1) * Var 20 / (Site 0 * Site 0 * Site 0 * Site 0) + Num (2#1) / (Site 0 * Site 0 * Site 0);
    Num (-6#1) * Var 20 / (Site 0 * Site 0 * Site 0 * Site 0) + Num (2#1) / (Site 0 * Site 0 * Site 0)];
    [Num (-6#1) * Var 20 / (Site 0 * Site 0 * Site 0 * Site 0) + Num (2#1) / (Site 0 * Site 0 * Site 0);
    Num (-6#1) * Var 20 / (Site 0 * Site 0 * Site 0 * Site 0);
    Num (-6#1) * Var 20 / (Site 0 * Site 0 * Site 0 * Site 0);
    Num (-6#1) * Var 20 / (Site 0 * Site 0 * Site 0 * Site 0);
    Num (-6#1) * Var 20 / (Site 0 * Site 0 * Site 0 * Site 0)];
    [Num (-6#1) * Var 20 / (Site 0 * Site 0 * Site 0 * Site 0) + Num (2#1) / (Site 0 * Site 0 * Site 0);
    Num (-6#1) * Var 20 / (Site 0 * Site 0 * Site 0 * Site 0);
    Num (-6#1) * Var 20 / (Site 0 * Site 0 * Site 0 * Site 0);
    Num (-6#1) * Var 20 / (Site 0 * Site 0 * Site 0 * Site 0);
    Num (-6#1) * Var 20 / (Site 0 * Site 0 * Site 0 * Site 0)];
    [Num (-6#1) * Var 20 / (Site 0 * Site 0 * Site 0 * Site 0) + Num (2#1) / (Site 0 * Site 0 * Site 0);
    Num (-6#1) * Var 20 / (Site 0 * Site 0 * Site 0 * Site 0);
    Num (-6#1) * Var 20 / (Site 0 * Site 0 * Site 0 * Site 0);
    Num (-6#1) * Var 20 / (Site 0 * Site 0 * Site 0 * Site 0);
    Num (-6#1) * Var 20 / (Site 0 * Site 0 * Site 0 * Site 0)];
    [Num (-6#1) * Var 20 / (Site 0 * Site 0 * Site 0 * Site 0) + Num (2#1) / (Site 0 * Site 0 * Site 0);
    Num (-6#1) * Var 20 / (Site 0 * Site 0 * Site 0 * Site 0);
    Num (-6#1) * Var 20 / (Site 0 * Site 0 * Site 0 * Site 0);
    Num (-6#1) * Var 20 / (Site 0 * Site 0 * Site 0 * Site 0);
    Num (-6#1) * Var 20 / (Site 0 * Site 0 * Site 0 * Site 0)]]];
    [[[Num (-6#1) * Var 23 / (Site 0 * Site 0 * Site 0 * Site 0);
    Num (-6#1) * Var 23 / (Site 0 * Site 0 * Site 0 * Site 0);
    Num (-6#1) * Var 23 / (Site 0 * Site 0 * Site 0 * Site 0);
    Num (-6#1) * Var 23 / (Site 0 * Site 0 * Site 0 * Site 0) + Num (2#1) / (Site 0 * Site 0 * Site 0);
    Num (-6#1) * Var 23 / (Site 0 * Site 0 * Site 0 * Site 0)];
    [Num (-6#1) * Var 23 / (Site 0 * Site 0 * Site 0 * Site 0);
    Num (-6#1) * Var 23 / (Site 0 * Site 0 * Site 0 * Site 0);
    Num (-6#1) * Var 23 / (Site 0 * Site 0 * Site 0 * Site 0);
    Num (-6#1) * Var 23 / (Site 0 * Site 0 * Site 0 * Site 0) + Num (2#1) / (Site 0 * Site 0 * Site 0);
    Num (-6#1) * Var 23 / (Site 0 * Site 0 * Site 0 * Site 0)];
    [Num (-6#1) * Var 23 / (Site 0 * Site 0 * Site 0 * Site 0);
    Num (-6#1) * Var 23 / (Site 0 * Site 0 * Site 0 * Site 0);
    Num (-6#1) * Var 23 / (Site 0 * Site 0 * Site 0 * Site 0);
    Num (-6#1) * Var 23 / (Site 0 * Site 0 * Site 0 * Site 0) + Num (2#1) / (Site 0 * Site 0 * Site 0);
    Num (-6#1) * Var 23 / (Site 0 * Site 0 * Site 0 * Site 0)];
    [Num (-6#1) * Var 23 / (Site 0 * Site 0 * Site 0 * Site 0) + Num (2#1) / (Site 0 * Site 0 * Site 0);
    Num (-6#1) * Var 23 / (Site 0 * Site 0 * Site 0 * Site 0) + Num (2#1) / (Site 0 * Site 0 * Site 0);
    Num (-6#1) * Var 23 / (Site 0 * Site 0 * Site 0 * Site 0) + Num (2#1) / (Site 0 * Site 0 * Site 0);
    Num (-6#1) * Var 23 / (Site 0 * Site 0 * Site 0 * Site 0) + Num (2#1) / (Site 0 * Site 0 * Site 0) + Num (2#1) / (Site 0 * Site 0 * Site 0);
    Num (-6#1) * Var 23 / (Site 0 * Site 0 * Site 0 * Site 0) + Num (2#1) / (Site 0 * Site 0 * Site 0)];
    [Num (-6#1) * Var 23 / (Site 0 * Site 0 * Site 0 * Site 0);
    Num (-6#1) * Var 23 / (Site 0 * Site 0 * Site 0 * Site 0);
    Num (-6#1) * Var 23 / (Site 0 * Site 0 * Site 0 * Site 0);
    Num (-6#1) * Var 23 / (Site 0 * Site 0 * Site 0 * Site 0) + Num (2#1) / (Site 0 * Site 0 * Site 0);
    Num (-6#1) * Var 23 / (Site 0 * Site 0 * Site 0 * Site 0)]];
    [[Num (-6#1) * Var 23 / (Site 0 * Site 0 * Site 0 * Site 0);
    Num (-6#1) * Var 23 / (Site 0 * Site 0 * Site 0 * Site 0);
    Num (-6#1) * Var 23 / (Site 0 * Site 0 * Site 0 * Site 0);
    Num (-6#1) * Var 23 / (Site 0 * Site 0 * Site 0 * Site 0) + Num (2#1) / (Site 0 * Site 0 * Site 0);
    Num (-6#1) * Var 23 / (Site 0 * Site 0 * Site 0 * Site 0)];
    [Num (-6#1) * Var 23 / (Site 0 * Site 0 * Site 0 * Site 0);
    Num (-6#1) * Var 23 / (Site 0 * Site 0 * Site 0 * Site 0);
    Num (-6#1) * Var 23 / (Site 0 * Site 0 * Site 0 * Site 0);
    Num (-6#1) * Var 23 / (Site 0 * Site 0 * Site 0 * Site 0) + Num (2#1) / (Site 0 * Site 0 * Site 0);
    Num (-6#1) * Var 23 / (Site 0 * Site 0 * Site 0 * Site 0)];
    [Num (-6#1) * Var 23 / (Site 0 * Site 0 * Site 0 * Site 0);
    Num (-6#1) * Var 23 / (Site 0 * Site 0 * Site 0 * Site 0);
    Num (-6#1) * Var 23 / (Site 0 * Site 0 * Site 0 * Site 0);
    Num (-6#1) * Var 23 / (Site 0 * Site 0 * Site 0 * Site 0) + Num (2#1) / (Site 0 * Site 0 * Site 0);
    Num (-6#1) * Var 23 / (Site 0 * Site 0 * Site 0 * Site 0)];
    [Num (-6#1) * Var 23 / (Site 0 * Site 0 * Site 0 * Site 0) + Num (2#1) / (Site 0 * Site 0 * Site 0);
    Num (-6#1) * Var 23 / (Site 0 * Site 0 * Site 0 * Site 0) + Num (2#1) / (Site 0 * Site 0 * Site 0);
    Num (-6#1) * Var 23 / (Site 0 * Site 0 * Site 0 * Site 0) + Num (2#1) / (Site 0 * Site 0 * Site 0);
    Num (-6#1) * Var 23 / (Site 0 * Site 0 * Site 0 * Site 0) + Num (2#1) / (Site 0 * Site 0 * Site 0) + Num (2#1) / (Site 0 * Site 0 * Site 0);
    Num (-6#1) * Var 23 / (Site 0 * Site 0 * Site 0 * Site 0) + Num (2#1) / (Site 0 * Site 0 * Site 0)];
    [Num (-6#1) * Var 23 / (Site 0 * Site 0 * Site 0 * Site 0);
    Num (-6#1) * Var 23 / (Site 0 * Site 0 * Site 0 * Site 0);
    Num (-6#1) * Var 23 / (Site 0 * Site 0 * Site 0 * Site 0);
    Num (-6#1) * Var 23 / (Site 0 * Site 0 * Site 0 * Site 0) + Num (2#1) / (Site 0 * Site 0 * Site 0);
    Num (-6#1) * Var 23 / (Site 0 * Site 0 * Site 0 * Site 0)]];
    [[Num (-6#1) * Var 23 / (Site 0 * Site 0 * Site 0 * Site 0);
    Num (-6#1) * Var 23 / (Site 0 * Site 0 * Site 0 * Site 0);
    Num (-6#1) * Var 23 / (Site 0 * Site 0 * Site 0 * Site 0);
    Num (-6#1) * Var 23 / (Site 0 * Site 0 * Site 0 * Site 0) + Num (2#1) / (Site 0 * Site 0 * Site 0);
    Num (-6#1) * Var 23 / (Site 0 * Site 0 * Site 0 * Site 0)];
    [Num (-6#1) * Var 23 / (Site 0 * Site 0 * Site 0 * Site 0);
    Num (-6#1) * Var 23 / (Site 0 * Site 0 * Site 0 * Site 0);
    Num (-6#1) * Var 23 / (Site 0 * Site 0 * Site 0 * Site 0);
    Num (-6#1) * Var 23 / (Site 0 * Site 0 * Site 0 * Site 0) + Num (2#1) / (Site 0 * Site 0 * Site 0);
    Num (-6#1) * Var 23 / (Site 0 * Site 0 * Site 0 * Site 0)];
    [Num (-6#1) * Var 23 / (Site 0 * Site 0 * Site 0 * Site 0);
    Num (-6#1) * Var 23 / (Site 0 * Site 0 * Site 0 * Site 0);
    Num (-6#1) * Var 23 / (Site 0 * Site 0 * Site 0 * Site 0);
    Num (-6#1) * Var 23 / (Site 0 * Site 0 * Site 0 * Site 0) + Num (2#1) / (Site 0 * Site 0 * Site 0);
    Num (-6#1) * Var 23 / (Site 0 * Site 0 * Site 0 * Site 0)];
    [Num (-6#1) * Var 23 / (Site 0 * Site 0 * Site 0 * Site 0) + Num (2#1) / (Site 0 * Site 0 * Site 0);
    Num (-6#1) * Var 23 / (Site 0 * Site 0 * Site 0 * Site 0) + Num (2#1) / (Site 0 * Site 0 * Site 0);
    Num (-6#1) * Var 23 / (Site 0 * Site 0 * Site 0 * Site 0) + Num (2#1) / (Site 0 * Site 0 * Site 0);
    Num (-6#1) * Var 23 / (Site 0 * Site 0 * Site 0 * Site 0) + Num (2#1) / (Site 0 * Site 0 * Site 0) + Num (2#1) / (Site 0 * Site 0 * Site 0);
    Num (-6#1) * Var 23 / (Site 0 * Site 0 * Site 0 * Site 0) + Num (2#1) / (Site 0 * Site 0 * Site 0)];
    [Num (-6#1) * Var 23 / (Site 0 * Site 0 * Site 0 * Site 0);
    Num (-6#1) * Var 23 / (Site 0 * Site 0 * Site 0 * Site 0);
    Num (-6#1) * Var 23 / (Site 0 * Site 0 * Site 0 * Site 0);
    Num (-6#1) * Var 23 / (Site 0 * Site 0 * Site 0 * Site 0) + Num (2#1) / (Site 0 * Site 0 * Site 0);
    Num (-6#1) * Var 23 / (Site 0 * Site 0 * Site 0 * Site 0)]];
    [[Num (-6#1) * Var 23 / (Site 0 * Site 0 * Site 0 * Site 0) + Num (2#1) / (Site 0 * Site 0 * Site 0);
    Num (-6#1) * Var 23 / (Site 0 * Site 0 * Site 0 * Site 0) + Num (2#1) / (Site 0 * Site 0 * Site 0);
    Num (-6#1) * Var 23 / (Site 0 * Site 0 * Site 0 * Site 0) + Num (2#1) / (Site 0 * Site 0 * Site 0);
    Num (-6#1) * Var 23 / (Site 0 * Site 0 * Site 0 * Site 0) + Num (2#1) / (Site 0 * Site 0 * Site 0) + Num (2#1) / (Site 0 * Site 0 * Site 0);
    Num (-6#1) * Var 23 / (Site 0 * Site 0 * Site 0 * Site 0) + Num (2#1) / (Site 0 * Site 0 * Site 0)];
    [Num (-6#1) * Var 23 / (Site 0 * Site 0 * Site 0 * Site 0) + Num (2#1) / (Site 0 * Site 0 * Site 0);
    Num (-6#1) * Var 23 / (Site 0 * Site 0 * Site 0 * Site 0) + Num (2#1) / (Site 0 * Site 0 * Site 0);
    Num (-6#1) * Var 23 / (Site 0 * Site 0 * Site 0 * Site 0) + Num (2#1) / (Site 0 * Site 0 * Site 0);
    Num (-6#1) * Var 23 / (Site 0 * Site 0 * Site 0 * Site 0) + Num (2#1) / (Site 0 * Site 0 * Site 0) + Num (2#1) / (Site 0 * Site 0 * Site 0);
    Num (-6#1) * Var 23 / (Site 0 * Site 0 * Site 0 * Site 0) + Num (2#1) / (Site 0 * Site 0 * Site 0)];
    [Num (-6#1) * Var 23 / (Site 0 * Site 0 * Site 0 * Site 0) + Num (2#1) / (Site 0 * Site 0 * Site 0);
    Num (-6#1) * Var 23 / (Site 0 * Site 0 * Site 0 * Site 0) + Num (2#1) / (Site 0 * Site 0 * Site 0);
    Num (-6#1) * Var 23 / (Site 0 * Site 0 * Site 0 * Site 0) + Num (2#1) / (Site 0 * Site 0 * Site 0);
    Num (-6#1) * Var 23 / (Site 0 * Site 0 * Site 0 * Site 0) + Num (2#1) / (Site 0 * Site 0 * Site 0) + Num (2#1) / (Site 0 * Site 0 * Site 0);
    Num (-6#1) * Var 23 / (Site 0 * Site 0 * Site 0 * Site 0) + Num (2#1) / (Site 0 * Site 0 * Site 0)];
    [Num (-6#1) * Var 23 / (Site 0 * Site 0 * Site 0 * Site 0) + Num (2#1) / (Site 0 * Site 0 * Site 0) + Num (2#1) / (Site 0 * Site 0 * Site 0);
    Num (-6#1) * Var 23 / (Site 0 * Site 0 * Site 0 * Site 0) + Num (2#1) / (Site 0 * Site 0 * Site 0) + Num (2#1) / (Site 0 * Site 0 * Site 0);
    Num (-6#1) * Var 23 / (Site 0 * Site 0 * Site 0 * Site 0) + Num (2#1) / (Site 0 * Site 0 * Site 0) + Num (2#1) / (Site 0 * Site 0 * Site 0);
    Num (-6#1) * Var 23 / (Site 0 * Site 0 * Site 0 * Site 0) + Num (2#1) / (Site 0 * Site 0 * Site 0) + Num (2#1) / (Site 0 * Site 0 * Site 0) + Num (2#1) / (Site 0 * Site 0 * Site 0);
    Num (-6#1) * Var 23 / (Site 0 * Site 0 * Site 0 * Site 0) + Num (2#1) / (Site 0 * Site 0 * Site 0) + Num (2#1) / (Site 0 * Site 0 * Site 0)];
    [Num (-6#1) * Var 23 / (Site 0 * Site 0 * Site 0 * Site 0) + Num (2#1) / (Site 0 * Site 0 * Site 0);
    Num (-6#1) * Var 23 / (Site 0 * Site 0 * Site 0 * Site 0) + Num (2#1) / (Site 0 * Site 0 * Site 0);
    Num (-6#1) * Var 23 / (Site 0 * Site 0 * Site 0 * Site 0) + Num (2#1) / (Site 0 * Site 0 * Site 0);
    Num (-6#1) * Var 23 / (Site 0 * Site 0 * Site 0 * Site 0) + Num (2#1) / (Site 0 * Site 0 * Site 0) + Num (2#1) / (Site 0 * Site 0 * Site 0);
    Num (-6#1) * Var 23 / (Site 0 * Site 0 * Site 0 * Site 0) + Num (2#1) / (Site 0 * Site 0 * Site 0)]];
    [[Num (-6#1) * Var 23 / (Site 0 * Site 0 * Site 0 * Site 0);
    Num (-6#1) * Var 23 / (Site 0 * Site 0 * Site 0 * Site 0);
    Num (-6#1) * Var 23 / (Site 0 * Site 0 * Site 0 * Site 0);
    Num (-6#1) * Var 23 / (Site 0 * Site 0 * Site 0 * Site 0) + Num (2#1) / (Site 0 * Site 0 * Site 0);
    Num (-6#1) * Var 23 / (Site 0 * Site 0 * Site 0 * Site 0)];
    [Num (-6#1) * Var 23 / (Site 0 * Site 0 * Site 0 * Site 0);
    Num (-6#1) * Var 23 / (Site 0 * Site 0 * Site 0 * Site 0);
    Num (-6#1) * Var 23 / (Site 0 * Site 0 * Site 0 * Site 0);
    Num (-6#1) * Var 23 / (Site 0 * Site 0 * Site 0 * Site 0) + Num (2#1) / (Site 0 * Site 0 * Site 0);
    Num (-6#1) * Var 23 / (Site 0 * Site 0 * Site 0 * Site 0)];
    [Num (-6#1) * Var 23 / (Site 0 * Site 0 * Site 0 * Site 0);
    Num (-6#1) * Var 23 / (Site 0 * Site 0 * Site 0 * Site 0);
    Num (-6#1) * Var 23 / (Site 0 * Site 0 * Site 0 * Site 0);
    Num (-6#1) * Var 23 / (Site 0 * Site 0 * Site 0 * Site 0) + Num (2#1) / (Site 0 * Site 0 * Site 0);
    Num (-6#1) * Var 23 / (Site 0 * Site 0 * Site 0 * Site 0)];
    [Num (-6#1) * Var 23 / (Site 0 * Site 0 * Site 0 * Site 0) + Num (2#1) / (Site 0 * Site 0 * Site 0);
    Num (-6#1) * Var 23 / (Site 0 * Site 0 * Site 0 * Site 0) + Num (2#1) / (Site 0 * Site 0 * Site 0);
    Num (-6#1) * Var 23 / (Site 0 * Site 0 * Site 0 * Site 0) + Num (2#1) / (Site 0 * Site 0 * Site 0);
    Num (-6#1) * Var 23 / (Site 0 * Site 0 * Site 0 * Site 0) + Num (2#1) / (Site 0 * Site 0 * Site 0) + Num (2#1) / (Site 0 * Site 0 * Site 0);
    Num (-6#1) * Var 23 / (Site 0 * Site 0 * Site 0 * Site 0) + Num (2#1) / (Site 0 * Site 0 * Site 0)];
    [Num (-6#1) * Var 23 / (Site 0 * Site 0 * Site 0 * Site 0);
    Num (-6#1) * Var 23 / (Site 0 * Site 0 * Site 0 * Site 0);
    Num (-6#1) * Var 23 / (Site 0 * Site 0 * Site 0 * Site 0);
    Num (-6#1) * Var 23 / (Site 0 * Site 0 * Site 0 * Site 0) + Num (2#1) / (Site 0 * Site 0 * Site 0);
    Num (-6#1) * Var 23 / (Site 0 * Site 0 * Site 0 * Site 0)]]];
    [[[Num (-6#1) * Var 24 / (Site 0 * Site 0 * Site 0 * Site 0);
    Num (-6#1) * Var 24 / (Site 0 * Site 0 * Site 0 * Site 0);
    Num (-6#1) * Var 24 / (Site 0 * Site 0 * Site 0 * Site 0);
    Num (-6#1) * Var 24 / (Site 0 * Site 0 * Site 0 * Site 0);
    Num (-6#1) * Var 24 / (Site 0 * Site 0 * Site 0 * Site 0) + Num (2#1) / (Site 0 * Site 0 * Site 0)];
    [Num (-6#1) * Var 24 / (Site 0 * Site 0 * Site 0 * Site 0);
    Num (-6#1) * Var 24 / (Site 0 * Site 0 * Site 0 * Site 0);
    Num (-6#1) * Var 24 / (Site 0 * Site 0 * Site 0 * Site 0);
    Num (-6#1) * Var 24 / (Site 0 * Site 0 * Site 0 * Site 0);
    Num (-6#1) * Var 24 / (Site 0 * Site 0 * Site 0 * Site 0) + Num (2#1) / (Site 0 * Site 0 * Site 0)];
    [Num (-6#1) * Var 24 / (Site 0 * Site 0 * Site 0 * Site 0);
    Num (-6#1) * Var 24 / (Site 0 * Site 0 * Site 0 * Site 0);
    Num (-6#1) * Var 24 / (Site 0 * Site 0 * Site 0 * Site 0);
    Num (-6#1) * Var 24 / (Site 0 * Site 0 * Site 0 * Site 0);
    Num (-6#1) * Var 24 / (Site 0 * Site 0 * Site 0 * Site 0) + Num (2#1) / (Site 0 * Site 0 * Site 0)];
    [Num (-6#1) * Var 24 / (Site 0 * Site 0 * Site 0 * Site 0);
    Num (-6#1) * Var 24 / (Site 0 * Site 0 * Site 0 * Site 0);
    Num (-6#1) * Var 24 / (Site 0 * Site 0 * Site 0 * Site 0);
    Num (-6#1) * Var 24 / (Site 0 * Site 0 * Site 0 * Site 0);
    Num (-6#1) * Var 24 / (Site 0 * Site 0 * Site 0 * Site 0) + Num (2#1) / (Site 0 * Site 0 * Site 0)];
    [Num (-6#1) * Var 24 / (Site 0 * Site 0 * Site 0 * Site 0) + Num (2#1) / (Site 0 * Site 0 * Site 0);
    Num (-6#1) * Var 24 / (Site 0 * Site 0 * Site 0 * Site 0) + Num (2#1) / (Site 0 * Site 0 * Site 0);
    Num (-6#1) * Var 24 / (Site 0 * Site 0 * Site 0 * Site 0) + Num (2#1) / (Site 0 * Site 0 * Site 0);
    Num (-6#1) * Var 24 / (Site 0 * Site 0 * Site 0 * Site 0) + Num (2#1) / (Site 0 * Site 0 * Site 0);
    Num (-6#1) * Var 24 / (Site 0 * Site 0 * Site 0 * Site 0) + Num (2#1) / (Site 0 * Site 0 * Site 0) + Num (2#1) / (Site 0 * Site 0 * Site 0)]];
    [[Num (-6#1) * Var 24 / (Site 0 * Site 0 * Site 0 * Site 0);
    Num (-6#1) * Var 24 / (Site 0 * Site 0 * Site 0 * Site 0);
    Num (-6#1) * Var 24 / (Site 0 * Site 0 * Site 0 * Site 0);
    Num (-6#1) * Var 24 / (Site 0 * Site 0 * Site 0 * Site 0);
    Num (-6#1) * Var 24 / (Site 0 * Site 0 * Site 0 * Site 0) + Num (2#1) / (Site 0 * Site 0 * Site 0)];
    [Num (-6#1) * Var 24 / (Site 0 * Site 0 * Site 0 * Site 0);
    Num (-6#1) * Var 24 / (Site 0 * Site 0 * Site 0 * Site 0);
    Num (-6#1) * Var 24 / (Site 0 * Site 0 * Site 0 * Site 0);
    Num (-6#1) * Var 24 / (Site 0 * Site 0 * Site 0 * Site 0);
    Num (-6#1) * Var 24 / (Site 0 * Site 0 * Site 0 * Site 0) + Num (2#1) / (Site 0 * Site 0 * Site 0)];
    [Num (-6#1) * Var 24 / (Site 0 * Site 0 * Site 0 * Site 0);
    Num (-6#1) * Var 24 / (Site 0 * Site 0 * Site 0 * Site 0);
    Num (-6#1) * Var 24 / (Site 0 * Site 0 * Site 0 * Site 0);
    Num (-6#1) * Var 24 / (Site 0 * Site 0 * Site 0 * Site 0);
    Num (-6#1) * Var 24 / (Site 0 * Site 0 * Site 0 * Site 0) + Num (2#1) / (Site 0 * Site 0 * Site 0)];
    [Num (-6#1) * Var 24 / (Site 0 * Site 0 * Site 0 * Site 0);
    Num (-6#1) * Var 24 / (Site 0 * Site 0 * Site 0 * Site 0);
    Num (-6#1) * Var 24 / (Site 0 * Site 0 * Site 0 * Site 0);
    Num (-6#1) * Var 24 / (Site 0 * Site 0 * Site 0 * Site 0);
    Num (-6#1) * Var 24 / (Site 0 * Site 0 * Site 0 * Site 0) + Num (2#1) / (Site 0 * Site 0 * Site 0)];
    [Num (-6#1) * Var 24 / (Site 0 * Site 0 * Site 0 * Site 0) + Num (2#1) / (Site 0 * Site 0 * Site 0);
    Num (-6#1) * Var 24 / (Site 0 * Site 0 * Site 0 * Site 0) + Num (2#1) / (Site 0 * Site 0 * Site 0);
    Num (-6#1) * Var 24 / (Site 0 * Site 0 * Site 0 * Site 0) + Num (2#1) / (Site 0 * Site 0 * Site 0);
    Num (-6#1) * Var 24 / (Site 0 * Site 0 * Site 0 * Site 0) + Num (2#1) / (Site 0 * Site 0 * Site 0);
    Num (-6#1) * Var 24 / (Site 0 * Site 0 * Site 0 * Site 0) + Num (2#1) / (Site 0 * Site 0 * Site 0) + Num (2#1) / (Site 0 * Site 0 * Site 0)]];
    [[Num (-6#1) * Var 24 / (Site 0 * Site 0 * Site 0 * Site 0);
    Num (-6#1) * Var 24 / (Site 0 * Site 0 * Site 0 * Site 0);
    Num (-6#1) * Var 24 / (Site 0 * Site 0 * Site 0 * Site 0);
    Num (-6#1) * Var 24 / (Site 0 * Site 0 * Site 0 * Site 0);
    Num (-6#1) * Var 24 / (Site 0 * Site 0 * Site 0 * Site 0) + Num (2#1) / (Site 0 * Site 0 * Site 0)];
    [Num (-6#1) * Var 24 / (Site 0 * Site 0 * Site 0 * Site 0);
    Num (-6#1) * Var 24 / (Site 0 * Site 0 * Site 0 * Site 0);
    Num (-6#1) * Var 24 / (Site 0 * Site 0 * Site 0 * Site 0);
    Num (-6#1) * Var 24 / (Site 0 * Site 0 * Site 0 * Site 0);
    Num (-6#1) * Var 24 / (Site 0 * Site 0 * Site 0 * Site 0) + Num (2#1) / (Site 0 * Site 0 * Site 0)];
    [Num (-6#1) * Var 24 / (Site 0 * Site 0 * Site 0 * Site 0);
    Num (-6#1) * Var 24 / (Site 0 * Site 0 * Site 0 * Site 0);
    Num (-6#1) * Var 24 / (Site 0 * Site 0 * Site 0 * Site 0);
    Num (-6#1) * Var 24 / (Site 0 * Site 0 * Site 0 * Site 0);
    Num (-6#1) * Var 24 / (Site 0 * Site 0 * Site 0 * Site 0) + Num (2#1) / (Site 0 * Site 0 * Site 0)];
    [Num (-6#1) * Var 24 / (Site 0 * Site 0 * Site 0 * Site 0);
    Num (-6#1) * Var 24 / (Site 0 * Site 0 * Site 0 * Site 0);
    Num (-6#1) * Var 24 / (Site 0 * Site 0 * Site 0 * Site 0);
    Num (-6#1) * Var 24 / (Site 0 * Site 0 * Site 0 * Site 0);
    Num (-6#1) * Var 24 / (Site 0 * Site 0 * Site 0 * Site 0) + Num (2#1) / (Site 0 * Site 0 * Site 0)];
    [Num (-6#1) * Var 24 / (Site 0 * Site 0 * Site 0 * Site 0) + Num (2#1) / (Site 0 * Site 0 * Site 0);
    Num (-6#1) * Var 24 / (Site 0 * Site 0 * Site 0 * Site 0) + Num (2#1) / (Site 0 * Site 0 * Site 0);
    Num (-6#1) * Var 24 / (Site 0 * Site 0 * Site 0 * Site 0) + Num (2#1) / (Site 0 * Site 0 * Site 0);
    Num (-6#1) * Var 24 / (Site 0 * Site 0 * Site 0 * Site 0) + Num (2#1) / (Site 0 * Site 0 * Site 0);
    Num (-6#1) * Var 24 / (Site 0 * Site 0 * Site 0 * Site 0) + Num (2#1) / (Site 0 * Site 0 * Site 0) + Num (2#1) / (Site 0 * Site 0 * Site 0)]];
    [[Num (-6#1) * Var 24 / (Site 0 * Site 0 * Site 0 * Site 0);
    Num (-6#1) * Var 24 / (Site 0 * Site 0 * Site 0 * Site 0);
    Num (-6#1) * Var 24 / (Site 0 * Site 0 * Site 0 * Site 0);
    Num (-6#1) * Var 24 / (Site 0 * Site 0 * Site 0 * Site 0);
    Num (-6#1) * Var 24 / (Site 0 * Site 0 * Site 0 * Site 0) + Num (2#1) / (Site 0 * Site 0 * Site 0)];
    [Num (-6#1) * Var 24 / (Site 0 * Site 0 * Site 0 * Site 0);
    Num (-6#1) * Var 24 / (Site 0 * Site 0 * Site 0 * Site 0);
    Num (-6#1) * Var 24 / (Site 0 * Site 0 * Site 0 * Site 0);
    Num (-6#1) * Var 24 / (Site 0 * Site 0 * Site 0 * Site 0);
    Num (-6#1) * Var 24 / (Site 0 * Site 0 * Site 0 * Site 0) + Num (2#1) / (Site 0 * Site 0 * Site 0)];
    [Num (-6#1) * Var 24 / (Site 0 * Site 0 * Site 0 * Site 0);
    Num (-6#1) * Var 24 / (Site 0 * Site 0 * Site 0 * Site 0);
    Num (-6#1) * Var 24 / (Site 0 * Site 0 * Site 0 * Site 0);
    Num (-6#1) * Var 24 / (Site 0 * Site 0 * Site 0 * Site 0);
    Num (-6#1) * Var 24 / (Site 0 * Site 0 * Site 0 * Site 0) + Num (2#1) / (Site 0 * Site 0 * Site 0)];
    [Num (-6#1) * Var 24 / (Site 0 * Site 0 * Site 0 * Site 0);
    Num (-6#1) * Var 24 / (Site 0 * Site 0 * Site 0 * Site 0);
    Num (-6#1) * Var 24 / (Site 0 * Site 0 * Site 0 * Site 0);
    Num (-6#1) * Var 24 / (Site 0 * Site 0 * Site 0 * Site 0);
    Num (-6#1) * Var 24 / (Site 0 * Site 0 * Site 0 * Site 0) + Num (2#1) / (Site 0 * Site 0 * Site 0)];
    [Num (-6#1) * Var 24 / (Site 0 * Site 0 * Site 0 * Site 0) + Num (2#1) / (Site 0 * Site 0 * Site 0);
    Num (-6#1) * Var 24 / (Site 0 * Site 0 * Site 0 * Site 0) + Num (2#1) / (Site 0 * Site 0 * Site 0);
    Num (-6#1) * Var 24 / (Site 0 * Site 0 * Site 0 * Site 0) + Num (2#1) / (Site 0 * Site 0 * Site 0);
    Num (-6#1) * Var 24 / (Site 0 * Site 0 * Site 0 * Site 0) + Num (2#1) / (Site 0 * Site 0 * Site 0);
    Num (-6#1) * Var 24 / (Site 0 * Site 0 * Site 0 * Site 0) + Num (2#1) / (Site 0 * Site 0 * Site 0) + Num (2#1) / (Site 0 * Site 0 * Site 0)]];
    [[Num (-6#1) * Var 24 / (Site 0 * Site 0 * Site 0 * Site 0) + Num (2#1) / (Site 0 * Site 0 * Site 0);
    Num (-6#1) * Var 24 / (Site 0 * Site 0 * Site 0 * Site 0) + Num (2#1) / (Site 0 * Site 0 * Site 0);
    Num (-6#1) * Var 24 / (Site 0 * Site 0 * Site 0 * Site 0) + Num (2#1) / (Site 0 * Site 0 * Site 0);
    Num (-6#1) * Var 24 / (Site 0 * Site 0 * Site 0 * Site 0) + Num (2#1) / (Site 0 * Site 0 * Site 0);
    Num (-6#1) * Var 24 / (Site 0 * Site 0 * Site 0 * Site 0) + Num (2#1) / (Site 0 * Site 0 * Site 0) + Num (2#1) / (Site 0 * Site 0 * Site 0)];
    [Num (-6#1) * Var 24 / (Site 0 * Site 0 * Site 0 * Site 0) + Num (2#1) / (Site 0 * Site 0 * Site 0);
    Num (-6#1) * Var 24 / (Site 0 * Site 0 * Site 0 * Site 0) + Num (2#1) / (Site 0 * Site 0 * Site 0);
    Num (-6#1) * Var 24 / (Site 0 * Site 0 * Site 0 * Site 0) + Num (2#1) / (Site 0 * Site 0 * Site 0);
    Num (-6#1) * Var 24 / (Site 0 * Site 0 * Site 0 * Site 0) + Num (2#1) / (Site 0 * Site 0 * Site 0);
    Num (-6#1) * Var 24 / (Site 0 * Site 0 * Site 0 * Site 0) + Num (2#1) / (Site 0 * Site 0 * Site 0) + Num (2#1) / (Site 0 * Site 0 * Site 0)];
    [Num (-6#1) * Var 24 / (Site 0 * Site 0 * Site 0 * Site 0) + Num (2#1) / (Site 0 * Site 0 * Site 0);
    Num (-6#1) * Var 24 / (Site 0 * Site 0 * Site 0 * Site 0) + Num (2#1) / (Site 0 * Site 0 * Site 0);
    Num (-6#1) * Var 24 / (Site 0 * Site 0 * Site 0 * Site 0) + Num (2#1) / (Site 0 * Site 0 * Site 0);
    Num (-6#1) * Var 24 / (Site 0 * Site 0 * Site 0 * Site 0) + Num (2#1) / (Site 0 * Site 0 * Site 0);
    Num (-6#1) * Var 24 / (Site 0 * Site 0 * Site 0 * Site 0) + Num (2#1) / (Site 0 * Site 0 * Site 0) + Num (2#1) / (Site 0 * Site 0 * Site 0)];
    [Num (-6#1) * Var 24 / (Site 0 * Site 0 * Site 0 * Site 0) + Num (2#1) / (Site 0 * Site 0 * Site 0);
    Num (-6#1) * Var 24 / (Site 0 * Site 0 * Site 0 * Site 0) + Num (2#1) / (Site 0 * Site 0 * Site 0);
    Num (-6#1) * Var 24 / (Site 0 * Site 0 * Site 0 * Site 0) + Num (2#1) / (Site 0 * Site 0 * Site 0);
    Num (-6#1) * Var 24 / (Site 0 * Site 0 * Site 0 * Site 0) + Num (2#1) / (Site 0 * Site 0 * Site 0);
    Num (-6#1) * Var 24 / (Site 0 * Site 0 * Site 0 * Site 0) + Num (2#1) / (Site 0 * Site 0 * Site 0) + Num (2#1) / (Site 0 * Site 0 * Site 0)];
    [Num (-6#1) * Var 24 / (Site 0 * Site 0 * Site 0 * Site 0) + Num (2#1) / (Site 0 * Site 0 * Site 0) + Num (2#1) / (Site 0 * Site 0 * Site 0);
    Num (-6#1) * Var 24 / (Site 0 * Site 0 * Site 0 * Site 0) + Num (2#1) / (Site 0 * Site 0 * Site 0) + Num (2#1) / (Site 0 * Site 0 * Site 0);
    Num (-6#1) * Var 24 / (Site 0 * Site 0 * Site 0 * Site 0) + Num (2#1) / (Site 0 * Site 0 * Site 0) + Num (2#1) / (Site 0 * Site 0 * Site 0);
    Num (-6#1) * Var 24 / (Site 0 * Site 0 * Site 0 * Site 0) + Num (2#1) / (Site 0 * Site 0 * Site 0) + Num (2#1) / (Site 0 * Site 0 * Site 0);
    Num (-6#1) * Var 24 / (Site 0 * Site 0 * Site 0 * Site 0) + Num (2#1) / (Site 0 * Site 0 * Site 0) + Num (2#1) / (Site 0 * Site 0 * Site 0) + Num (2#1) / (Site 0 * Site 0 * Site 0)]]]].
(** sources/rhomsghiorso.c 2796-3007: conMsg, inpMask THIRD, output x[i] from r *)
Definition Msg_con_xr :=
  [Var 3;
    Num (1#1) - Var 2 - Var 3 - Var 4 - Var 5;
    Var 2;
    Var 4;
    Var 5].
(** sources/rhomsghiorso.c 2796-3007: conMsg, inpMask THIRD, output dr[i][j] *)
Definition Msg_con_dr :=
  [[Num (0#1);
    Num (1#1);
    Num (0#1);
    Num (0#1)];
    [Num (-1#1);
    Num (-1#1);
    Num (-1#1);
    Num (-1#1)];
    [Num (1#1);
    Num (0#1);
    Num (0#1);
    Num (0#1)];
    [Num (0#1);
    Num (0#1);
    Num (1#1);
    Num (0#1)];
    [Num (0#1);
    Num (0#1);
    Num (0#1);
    Num (1#1)]].
(** sources/rhomsghiorso.c 2796-3007: x[i] from r is set to zero when it is smaller in absolute value than this number *)
Definition Msg_con_snap : list (nat * Q) := [].
Definition conMsg : conv :=
  mkConv "rhomsghiorso" 5 4 Msg_con_r Msg_con_x Msg_con_dm Msg_con_d2m Msg_con_d3m Msg_con_xr Msg_con_dr Msg_con_snap.

(** sources/spinel.c 2725-2957: conSpn, inpMask SECOND, output r[i] from m *)
Definition Spn_con_r :=
  [Var 23 / Site 0;
    Var 20 / Site 0;
    Var 24 / Site 0;
    Var 22 / Site 0].
(** sources/spinel.c 2725-2957: conSpn, inpMask SECOND, output x[i] from m *)
Definition Spn_con_x :=
  [Var 20 / Site 0;
    Var 21 / Site 0;
    Var 22 / Site 0;
    Var 23 / Site 0;
    Var 24 / Site 0].
(** sources/spinel.c 2725-2957: conSpn, inpMask SECOND, output dm[i][j] *)
Definition Spn_con_dm :=
  [[(- Var 23) / (Site 0 * Site 0);
    (- Var 23) / (Site 0 * Site 0);
    (- Var 23) / (Site 0 * Site 0);
    (Num (1#1) - Var 23 / Site 0) / Site 0;
    (- Var 23) / (Site 0 * Site 0)];
    [(Num (1#1) - Var 20 / Site 0) / Site 0;
    (- Var 20) / (Site 0 * Site 0);
    (- Var 20) / (Site 0 * Site 0);
    (- Var 20) / (Site 0 * Site 0);
    (- Var 20) / (Site 0 * Site 0)];
    [(- Var 24) / (Site 0 * Site 0);
    (- Var 24) / (Site 0 * Site 0);
    (- Var 24) / (Site 0 * Site 0);
    (- Var 24) / (Site 0 * Site 0);
    (Num (1#1) - Var 24 / Site 0) / Site 0];
    [(- Var 22) / (Site 0 * Site 0);
    (- Var 22) / (Site 0 * Site 0);
    (Num (1#1) - Var 22 / Site 0) / Site 0;
    (- Var 22) / (Site 0 * Site 0);
    (- Var 22) / (Site 0 * Site 0)]].
(** sources/spinel.c 2725-2957: conSpn, inpMask SECOND, output d2m[i][j][k] *)
Definition Spn_con_d2m :=
  [[[Num (2#1) * Var 23 / (Site 0 * Site 0 * Site 0);
    Num (2#1) * Var 23 / (Site 0 * Site 0 * Site 0);
    Num (2#1) * Var 23 / (Site 0 * Site 0 * Site 0);
    Num (2#1) * Var 23 / (Site 0 * Site 0 * Site 0) - Num (1#1) / (Site 0 * Site 0);
    Num (2#1) * Var 23 / (Site 0 * Site 0 * Site 0)];
    [Num (2#1) * Var 23 / (Site 0 * Site 0 * Site 0);
    Num (2#1) * Var 23 / (Site 0 * Site 0 * Site 0);
    Num (2#1) * Var 23 / (Site 0 * Site 0 * Site 0);
    Num (2#1) * Var 23 / (Site 0 * Site 0 * Site 0) - Num (1#1) / (Site 0 * Site 0);
    Num (2#1) * Var 23 / (Site 0 * Site 0 * Site 0)];
    [Num (2#1) * Var 23 / (Site 0 * Site 0 * Site 0);
    Num (2#1) * Var 23 / (Site 0 * Site 0 * Site 0);
    Num (2#1) * Var 23 / (Site 0 * Site 0 * Site 0);
    Num (2#1) * Var 23 / (Site 0 * Site 0 * Site 0) - Num (1#1) / (Site 0 * Site 0);
    Num (2#1) * Var 23 / (Site 0 * Site 0 * Site 0)];
    [Num (2#1) * Var 23 / (Site 0 * Site 0 * Site 0) - Num (1#1) / (Site 0 * Site 0);
    Num (2#1) * Var 23 / (Site 0 * Site 0 * Site 0) - Num (1#1) / (Site 0 * Site 0);
    Num (2#1) * Var 23 / (Site 0 * Site 0 * Site 0) - Num (1#1) / (Site 0 * Site 0);
    Num (2#1) * Var 23 / (Site 0 * Site 0 * Site 0) - Num (1#1) / (Site 0 * Site 0) - Num (1#1) / (Site 0 * Site 0);
    Num (2#1) * Var 23 / (Site 0 * Site 0 * Site 0) - Num (1#1) / (Site 0 * Site 0)];
    [Num (2#1) * Var 23 / (Site 0 * Site 0 * Site 0);
    Num (2#1) * Var 23 / (Site 0 * Site 0 * Site 0);
    Num (2#1) * Var 23 / (Site 0 * Site 0 * Site 0);
    Num (2#1) * Var 23 / (Site 0 * Site 0 * Site 0) - Num (1#1) / (Site 0 * Site 0);
    Num (2#1) * Var 23 / (Site 0 * Site 0 * Site 0)]];
    [[Num (2#1) * Var 20 / (Site 0 * Site 0 * Site 0) - Num (1#1) / (Site 0 * Site 0) - Num (1#1) / (Site 0 * Site 0);
    Num (2#1) * Var 20 / (Site 0 * Site 0 * Site 0) - Num (1#1) / (Site 0 * Site 0);
    Num (2#1) * Var 20 / (Site 0 * Site 0 * Site 0) - Num (1#1) / (Site 0 * Site 0);
    Num (2#1) * Var 20 / (Site 0 * Site 0 * Site 0) - Num (1#1) / (Site 0 * Site 0);
    Num (2#1) * Var 20 / (Site 0 * Site 0 * Site 0) - Num (1#1) / (Site 0 * Site 0)];
    [Num (2#1) * Var 20 / (Site 0 * Site 0 * Site 0) - Num (1#1) / (Site 0 * Site 0);
    Num (2#1) * Var 20 / (Site 0 * Site 0 * Site 0);
    Num (2#1) * Var 20 / (Site 0 * Site 0 * Site 0);
    Num (2#1) * Var 20 / (Site 0 * Site 0 * Site 0);
    Num (2#1) * Var 20 / (Site 0 * Site 0 * Site 0)];
    [Num (2#1) * Var 20 / (Site 0 * Site 0 * Site 0) - Num (1#1) / (Site 0 * Site 0);
    Num (2#1) * Var 20 / (Site 0 * Site 0 * Site 0);
    Num (2#1) * Var 20 / (Site 0 * Site 0 * Site 0);
    Num (2#1) * Var 20 / (Site 0 * Site 0 * Site 0);
    Num (2#1) * Var 20 / (Site 0 * Site 0 * Site 0)];
    [Num (2#1) * Var 20 / (Site 0 * Site 0 * Site 0) - Num (1#1) / (Site 0 * Site 0);
    Num (2#1) * Var 20 / (Site 0 * Site 0 * Site 0);
    Num (2#1) * Var 20 / (Site 0 * Site 0 * Site 0);
    Num (2#1) * Var 20 / (Site 0 * Site 0 * Site 0);
    Num (2#1) * Var 20 / (Site 0 * Site 0 * Site 0)];
    [Num (2#1) * Var 20 / (Site 0 * Site 0 * Site 0) - Num (1#1) / (Site 0 * Site 0);
    Num (2#1) * Var 20 / (Site 0 * Site 0 * Site 0);
    Num (2#1) * Var 20 / (Site 0 * Site 0 * Site 0);
    Num (2#1) * Var 20 / (Site 0 * Site 0 * Site 0);
    Num (2#1) * Var 20 / (Site 0 * Site 0 * Site 0)]];
    [[Num (2#1) * Var 24 / (Site 0 * Site 0 * Site 0);
    Num (2#1) * Var 24 / (Site 0 * Site 0 * Site 0);
    Num (2#1) * Var 24 / (Site 0 * Site 0 * Site 0);
    Num (2#1) * Var 24 / (Site 0 * Site 0 * Site 0);
    Num (2#1) * Var 24 / (Site 0 * Site 0 * Site 0) - Num (1#1) / (Site 0 * Site 0)];
    [Num (2#1) * Var 24 / (Site 0 * Site 0 * Site 0);
    Num (2#1) * Var 24 / (Site 0 * Site 0 * Site 0);
    Num (2#1) * Var 24 / (Site 0 * Site 0 * Site 0);
    Num (2#1) * Var 24 / (Site 0 * Site 0 * Site 0);
    Num (2#1) * Var 24 / (Site 0 * Site 0 * Site 0) - Num (1#1) / (Site 0 * Site 0)];
    [Num (2#1) * Var 24 / (Site 0 * Site 0 * Site 0);
    Num (2#1) * Var 24 / (Site 0 * Site 0 * Site 0);
    Num (2#1) * Var 24 / (Site 0 * Site 0 * Site 0);
    Num (2#1) * Var 24 / (Site 0 * Site 0 * Site 0);
    Num (2#1) * Var 24 / (Site 0 * Site 0 * Site 0) - Num (1#1) / (Site 0 * Site 0)];
    [Num (2#1) * Var 24 / (Site 0 * Site 0 * Site 0);
    Num (2#1) * Var 24 / (Site 0 * Site 0 * Site 0);
    Num (2#1) * Var 24 / (Site 0 * Site 0 * Site 0);
    Num (2#1) * Var 24 / (Site 0 * Site 0 * Site 0);
    Num (2#1) * Var 24 / (Site 0 * Site 0 * Site 0) - Num (1#1) / (Site 0 * Site 0)];
    [Num (2#1) * Var 24 / (Site 0 * Site 0 * Site 0) - Num (1#1) / (Site 0 * Site 0);
    Num (2#1) * Var 24 / (Site 0 * Site 0 * Site 0) - Num (1#1) / (Site 0 * Site 0);
    Num (2#1) * Var 24 / (Site 0 * Site 0 * Site 0) - Num (1#1) / (Site 0 * Site 0);
    Num (2#1) * Var 24 / (Site 0 * Site 0 * Site 0) - Num (1#1) / (Site 0 * Site 0);
    Num (2#1) * Var 24 / (Site 0 * Site 0 * Site 0) - Num (1#1) / (Site 0 * Site 0) - Num (1#1) / (Site 0 * Site 0)]];
    [[Num (2#1) * Var 22 / (Site 0 * Site 0 * Site 0);
    Num (2#1) * Var 22 / (Site 0 * Site 0 * Site 0);
    Num (2#1) * Var 22 / (Site 0 * Site 0 * Site 0) - Num (1#1) / (Site 0 * Site 0);
    Num (2#1) * Var 22 / (Site 0 * Site 0 * Site 0);
    Num (2#1) * Var 22 / (Site 0 * Site 0 * Site 0)];
    [Num (2#1) * Var 22 / (Site 0 * Site 0 * Site 0);
    Num (2#1) * Var 22 / (Site 0 * Site 0 * Site 0);
    Num (2#1) * Var 22 / (Site 0 * Site 0 * Site 0) - Num (1#1) / (Site 0 * Site 0);
    Num (2#1) * Var 22 / (Site 0 * Site 0 * Site 0);
    Num (2#1) * Var 22 / (Site 0 * Site 0 * Site 0)];
    [Num (2#1) * Var 22 / (Site 0 * Site 0 * Site 0) - Num (1#1) / (Site 0 * Site 0);
    Num (2#1) * Var 22 / (Site 0 * Site 0 * Site 0) - Num (1#1) / (Site 0 * Site 0);
    Num (2#1) * Var 22 / (Site 0 * Site 0 * Site 0) - Num (1#1) / (Site 0 * Site 0) - Num (1#1) / (Site 0 * Site 0);
    Num (2#1) * Var 22 / (Site 0 * Site 0 * Site 0) - Num (1#1) / (Site 0 * Site 0);
    Num (2#1) * Var 22 / (Site 0 * Site 0 * Site 0) - Num (1#1) / (Site 0 * Site 0)];
    [Num (2#1) * Var 22 / (Site 0 * Site 0 * Site 0);
    Num (2#1) * Var 22 / (Site 0 * Site 0 * Site 0);
    Num (2#1) * Var 22 / (Site 0 * Site 0 * Site 0) - Num (1#1) / (Site 0 * Site 0);
    Num (2#1) * Var 22 / (Site 0 * Site 0 * Site 0);
    Num (2#1) * Var 22 / (Site 0 * Site 0 * Site 0)];
    [Num (2#1) * Var 22 / (Site 0 * Site 0 * Site 0);
    Num (2#1) * Var 22 / (Site 0 * Site 0 * Site 0);
    Num (2#1) * Var 22 / (Site 0 * Site 0 * Site 0) - Num (1#1) / (Site 0 * Site 0);
    Num (2#1) * Var 22 / (Site 0 * Site 0 * Site 0);
    Num (2#1) * Var 22 / (Site 0 * Site 0 * Site 0)]]].
(** sources/spinel.c 2725-2957: conSpn, inpMask SECOND, output d3m[i][j][k][l] *)
Definition Spn_con_d3m :=
  [[[[Num (-6#1) * Var 23 / (Site 0 * Site 0 * Site 0 * Site 0);
    Num (-6#1) * Var 23 / (Site 0 * Site 0 * Site 0 * Site 0);
    Num (-6#1) * Var 23 / (Site 0 * Site 0 * Site 0 * Site 0);
    Num (-6#1) * Var 23 / (Site 0 * Site 0 * Site 0 * Site 0) + Num (2#1) / (Site 0 * Site 0 * Site 0);
    Num (-6#1) * Var 23 / (Site 0 * Site 0 * Site 0 * Site 0)];
    [Num (-6#1) * Var 23 / (Site 0 * Site 0 * Site 0 * Site 0);
    Num (-6#1) * Var 23 / (Site 0 * Site 0 * Site 0 * Site 0);
    Num (-6#1) * Var 23 / (Site 0 * Site 0 * Site 0 * Site 0);
    Num (-6#1) * Var 23 / (Site 0 * Site 0 * Site 0 * Site 0) + Num (2#1) / (Site 0 * Site 0 * Site 0);
    Num (-6#1) * Var 23 / (Site 0 * Site 0 * Site 0 * Site 0)];
    [Num (-6#1) * Var 23 / (Site 0 * Site 0 * Site 0 * Site 0);
    Num (-6#1) * Var 23 / (Site 0 * Site 0 * Site 0 * Site 0);
    Num (-6#1) * Var 23 / (Site 0 * Site 0 * Site 0 * Site 0);
    Num (-6#1) * Var 23 / (Site 0 * Site 0 * Site 0 * Site 0) + Num (2#1) / (Site 0 * Site 0 * Site 0);
    Num (-6#1) * Var 23 / (Site 0 * Site 0 * Site 0 * Site 0)];
    [Num (-6#1) * Var 23 / (Site 0 * Site 0 * Site 0 * Site 0) + Num (2#1) / (Site 0 * Site 0 * Site 0);
    Num (-6#1) * Var 23 / (Site 0 * Site 0 * Site 0 * Site 0) + Num (2#1) / (Site 0 * Site 0 * Site 0);
    Num (-6#1) * Var 23 / (Site 0 * Site 0 * Site 0 * Site 0) + Num (2#1) / (Site 0 * Site 0 * Site 0);
    Num (-6#1) * Var 23 / (Site 0 * Site 0 * Site 0 * Site 0) + Num (2#1) / (Site 0 * Site 0 * Site 0) + Num (2#1) / (Site 0 * Site 0 * Site 0);
    Num (-6#1) * Var 23 / (Site 0 * Site 0 * Site 0 * Site 0) + Num (2#1) / (Site 0 * Site 0 * Site 0)];
    [Num (-6#1) * Var 23 / (Site 0 * Site 0 * Site 0 * Site 0);
    Num (-6#1) * Var 23 / (Site 0 * Site 0 * Site 0 * Site 0);
    Num (-6#1) * Var 23 / (Site 0 * Site 0 * Site 0 * Site 0);
    Num (-6#1) * Var 23 / (Site 0 * Site 0 * Site 0 * Site 0) + Num (2#1) / (Site 0 * Site 0 * Site 0);
    Num (-6#1) * Var 23 / (Site 0 * Site 0 * Site 0 * Site 0)]];
    [[Num (-6#1) * Var 23 / (Site 0 * Site 0 * Site 0 * Site 0);
    Num (-6#1) * Var 23 / (Site 0 * Site 0 * Site 0 * Site 0);
    Num (-6#1) * Var 23 / (Site 0 * Site 0 * Site 0 * Site 0);
    Num (-6#1) * Var 23 / (Site 0 * Site 0 * Site 0 * Site 0) + Num (2#1) / (Site 0 * Site 0 * Site 0);
    Num (-6#1) * Var 23 / (Site 0 * Site 0 * Site 0 * Site 0)];
    [Num (-6#1) * Var 23 / (Site 0 * Site 0 * Site 0 * Site 0);
    Num (-6#1) * Var 23 / (Site 0 * Site 0 * Site 0 * Site 0);
    Num (-6#1) * Var 23 / (Site 0 * Site 0 * Site 0 * Site 0);
    Num (-6#1) * Var 23 / (Site 0 * Site 0 * Site 0 * Site 0) + Num (2#1) / (Site 0 * Site 0 * Site 0);
    Num (-6#1) * Var 23 / (Site 0 * Site 0 * Site 0 * Site 0)];
    [Num (-6#1) * Var 23 / (Site 0 * Site 0 * Site 0 * Site 0);
    Num (-6#1) * Var 23 / (Site 0 * Site 0 * Site 0 * Site 0);
    Num (-6#1) * Var 23 / (Site 0 * Site 0 * Site 0 * Site 0);
    Num (-6#1) * Var 23 / (Site 0 * Site 0 * Site 0 * Site 0) + Num (2#1) / (Site 0 * Site 0 * Site 0);
    Num (-6#1) * Var 23 / (Site 0 * Site 0 * Site 0 * Site 0)];
    [Num (-6#1) * Var 23 / (Site 0 * Site 0 * Site 0 * Site 0) + Num (2#1) / (Site 0 * Site 0 * Site 0);
    Num (-6#1) * Var 23 / (Site 0 * Site 0 * Site 0 * Site 0) + Num (2#1) / (Site 0 * Site 0 * Site 0);
    Num (-6#1) * Var 23 / (Site 0 * Site 0 * Site 0 * Site 0) + Num (2#1) / (Site 0 * Site 0 * Site 0);
    Num (-6#1) * Var 23 / (Site 0 * Site 0 * Site 0 * Site 0) + Num (2#1) / (Site 0 * Site 0 * Site 0) + Num (2#1) / (Site 0 * Site 0 * Site 0);
    Num (-6#1) * Var 23 / (Site 0 * Site 0 * Site 0 * Site 0) + Num (2#1) / (Site 0 * Site 0 * Site 0)];
    [Num (-6#1) * Var 23 / (Site 0 * Site 0 * Site 0 * Site 0);
    Num (-6#1) * Var 23 / (Site 0 * Site 0 * Site 0 * Site 0);
    Num (-6#1) * Var 23 / (Site 0 * Site 0 * Site 0 * Site 0);
    Num (-6#1) * Var 23 / (Site 0 * Site 0 * Site 0 * Site 0) + Num (2#1) / (Site 0 * Site 0 * Site 0);
    Num (-6#1) * Var 23 / (Site 0 * Site 0 * Site 0 * Site 0)]];
    [[Num (-6#1) * Var 23 / (Site 0 * Site 0 * Site 0 * Site 0);
    Num (-6#1) * Var 23 / (Site 0 * Site 0 * Site 0 * Site 0);
    Num (-6#1) * Var 23 / (Site 0 * Site 0 * Site 0 * Site 0);
    Num (-6#1) * Var 23 / (Site 0 * Site 0 * Site 0 * Site 0) + Num (2#1) / (Site 0 * Site 0 * Site 0);
    Num (-6#1) * Var 23 / (Site 0 * Site 0 * Site 0 * Site 0)];
    [Num (-6#1) * Var 23 / (Site 0 * Site 0 * Site 0 * Site 0);
    Num (-6#1) * Var 23 / (Site 0 * Site 0 * Site 0 * Site 0);
    Num (-6#1) * Var 23 / (Site 0 * Site 0 * Site 0 * Site 0);
    Num (-6#1) * Var 23 / (Site 0 * Site 0 * Site 0 * Site 0) + Num (2#1) / (Site 0 * Site 0 * Site 0);
    Num (-6#1) * Var 23 / (Site 0 * Site 0 * Site 0 * Site 0)];
    [Num (-6#1) * Var 23 / (Site 0 * Site 0 * Site 0 * Site 0);
    Num (-6#1) * Var 23 / (Site 0 * Site 0 * Site 0 * Site 0);
    Num (-6#1) * Var 23 / (Site 0 * Site 0 * Site 0 * Site 0);
    Num (-6#1) * Var 23 / (Site 0 * Site 0 * Site 0 * Site 0) + Num (2#1) / (Site 0 * Site 0 * Site 0);
    Num (-6#1) * Var 23 / (Site 0 * Site 0 * Site 0 * Site 0)];
    [Num (-6#1) * Var 23 / (Site 0 * Site 0 * Site 0 * Site 0) + Num (2#1) / (Site 0 * Site 0 * Site 0);
    Num (-6#1) * Var 23 / (Site 0 * Site 0 * Site 0 * Site 0) + Num (2#1) / (Site 0 * Site 0 * Site 0);
    Num (-6#1) * Var 23 / (Site 0 * Site 0 * Site 0 * Site 0) + Num (2#1) / (Site 0 * Site 0 * Site 0);
    Num (-6#1) * Var 23 / (Site 0 * Site 0 * Site 0 * Site 0) + Num (2#1) / (Site 0 * Site 0 * Site 0) + Num (2#1) / (Site 0 * Site 0 * Site 0);
    Num (-6#1) * Var 23 / (Site 0 * Site 0 * Site 0 * Site 0) + Num (2#1) / (Site 0 * Site 0 * Site 0)];
    [Num (-6#1) * Var 23 / (Site 0 * Site 0 * Site 0 * Site 0);
    Num (-6#1) * Var 23 / (Site 0 * Site 0 * Site 0 * Site 0);
    Num (-6#1) * Var 23 / (Site 0 * Site 0 * Site 0 * Site 0);
    Num (-6#1) * Var 23 / (Site 0 * Site 0 * Site 0 * Site 0) + Num (2#1) / (Site 0 * Site 0 * Site 0);
    Num (-6#1) * Var 23 / (Site 0 * Site 0 * Site 0 * Site 0)]];
    [[Num (-6#1) * Var 23 / (Site 0 * Site 0 * Site 0 * Site 0) + Num (2#1) / (Site 0 * Site 0 * Site 0);
    Num (-6#1) * Var 23 / (Site 0 * Site 0 * Site 0 * Site 0) + Num (2#1) / (Site 0 * Site 0 * Site 0);
    Num (-6#1) * Var 23 / (Site 0 * Site 0 * Site 0 * Site 0) + Num (2#1) / (Site 0 * Site 0 * Site 0);
    Num (-6#1) * Var 23 / (Site 0 * Site 0 * Site 0 * Site 0) + Num (2#1) / (Site 0 * Site 0 * Site 0) + Num (2#1) / (Site 0 * Site 0 * Site 0);
    Num (-6#1) * Var 23 / (Site 0 * Site 0 * Site 0 * Site 0) + Num (2#1) / (Site 0 * Site 0 * Site 0)];
    [Num (-6#1) * Var 23 / (Site 0 * Site 0 * Site 0 * Site 0) + Num (2#1) / (Site 0 * Site 0 * Site 0);
    Num (-6#1) * Var 23 / (Site 0 * Site 0 * Site 0 * Site 0) + Num (2#1) / (Site 0 * Site 0 * Site 0);
    Num (-6#1) * Var 23 / (Site 0 * Site 0 * Site 0 * Site 0) + Num (2#1) / (Site 0 * Site 0 * Site 0);
    Num (-6#1) * Var 23 / (Site 0 * Site 0 * Site 0 * Site 0) + Num (2#1) / (Site 0 * Site 0 * Site 0) + Num (2#1) / (Site 0 * Site 0 * Site 0);
    Num (-6#1) * Var 23 / (Site 0 * Site 0 * Site 0 * Site 0) + Num (2#1) / (Site 0 * Site 0 * Site 0)];
    [Num (-6#1) * Var 23 / (Site 0 * Site 0 * Site 0 * Site 0) + Num (2#1) / (Site 0 * Site 0 * Site 0);
    Num (-6#1) * Var 23 / (Site 0 * Site 0 * Site 0 * Site 0) + Num (2#1) / (Site 0 * Site 0 * Site 0);
    Num (-6#1) * Var 23 / (Site 0 * Site 0 * Site 0 * Site 0) + Num (2#1) / (Site 0 * Site 0 * Site 0);
    Num (-6#1) * Var 23 / (Site 0 * Site 0 * Site 0 * Site 0) + Num (2#1) / (Site 0 * Site 0 * Site 0) + Num (2#1) / (Site 0 * Site 0 * Site 0);
    Num (-6#1) * Var 23 / (Site 0 * Site 0 * Site 0 * Site 0) + Num (2#1) / (Site 0 * Site 0 * Site 0)];
    [Num (-6#1) * Var 23 / (Site 0 * Site 0 * Site 0 * Site 0) + Num (2#1) / (Site 0 * Site 0 * Site 0) + Num (2#1) / (Site 0 * Site 0 * Site 0);
    Num (-6#1) * Var 23 / (Site 0 * Site 0 * Site 0 * Site 0) + Num (2#1) / (Site 0 * Site 0 * Site 0) + Num (2#1) / (Site 0 * Site 0 * Site 0);
    Num (-6#1) * Var 23 / (Site 0 * Site 0 * Site 0 * Site 0) + Num (2#1) / (Site 0 * Site 0 * Site 0) + Num (2#1) / (Site 0 * Site 0 * Site 0);
    Num (-6#1) * Var 23 / (Site 0 * Site 0 * Site 0 * Site 0) + Num (2#1) / (Site 0 * Site 0 * Site 0) + Num (2#1) / (Site 0 * Site 0 * Site 0) + Num (2#1) / (Site 0 * Site 0 * Site 0);
    Num (-6#1) * Var 23 / (Site 0 * Site 0 * Site 0 * Site 0) + Num (2#1) / (Site 0 * Site 0 * Site 0) + Num (2#1) / (Site 0 * Site 0 * Site 0)];
    [Num (-6#1) * Var 23 / (Site 0 * Site 0 * Site 0 * Site 0) + Num (2#1) / (Site 0 * Site 0 * Site 0);
    Num (-6#1) * Var 23 / (Site 0 * Site 0 * Site 0 * Site 0) + Num (2#1) / (Site 0 * Site 0 * Site 0);
    Num (-6#1) * Var 23 / (Site 0 * Site 0 * Site 0 * Site 0) + Num (2#1) / (Site 0 * Site 0 * Site 0);
    Num (-6#1) * Var 23 / (Site 0 * Site 0 * Site 0 * Site 0) + Num (2#1) / (Site 0 * Site 0 * Site 0) + Num (2#1) / (Site 0 * Site 0 * Site 0);
    Num (-6#1) * Var 23 / (Site 0 * Site 0 * Site 0 * Site 0) + Num (2#1) / (Site 0 * Site 0 * Site 0)]];
    [[Num (-6#1) * Var 23 / (Site 0 * Site 0 * Site 0 * Site 0);
    Num (-6#1) * Var 23 / (Site 0 * Site 0 * Site 0 * Site 0);
    Num (-6#1) * Var 23 / (Site 0 * Site 0 * Site 0 * Site 0);
    Num (-6#1) * Var 23 / (Site 0 * Site 0 * Site 0 * Site 0) + Num (2#1) / (Site 0 * Site 0 * Site 0);
    Num (-6#1) * Var 23 / (Site 0 * Site 0 * Site 0 * Site 0)];
    [Num (-6#1) * Var 23 / (Site 0 * Site 0 * Site 0 * Site 0);
    Num (-6#1) * Var 23 / (Site 0 * Site 0 * Site 0 * Site 0);
    Num (-6#1) * Var 23 / (Site 0 * Site 0 * Site 0 * Site 0);
    Num (-6#1) * Var 23 / (Site 0 * Site 0 * Site 0 * Site 0) + Num (2#1) / (Site 0 * Site 0 * Site 0);
    Num (-6#1) * Var 23 / (Site 0 * Site 0 * Site 0 * Site 0)];
    [Num (-6#1) * Var 23 / (Site 0 * Site 0 * Site 0 * Site 0);
    Num (-6#1) * Var 23 / (Site 0 * Site 0 * Site 0 * Site 0);
    Num (-6#1) * Var 23 / (Site 0 * Site 0 * Site 0 * Site 0);
    Num (-6#1) * Var 23 / (Site 0 * Site 0 * Site 0 * Site 0) + Num (2#1) / (Site 0 * Site 0 * Site 0);
    Num (-6#1) * Var 23 / (Site 0 * Site 0 * Site 0 * Site 0)];
    [Num (-6#1) * Var 23 / (Site 0 * Site 0 * Site 0 * Site 0) + Num (2#1) / (Site 0 * Site 0 * Site 0);
    Num (-6#1) * Var 23 / (Site 0 * Site 0 * Site 0 * Site 0) + Num (2#1) / (Site 0 * Site 0 * Site 0);
    Num (-6#1) * Var 23 / (Site 0 * Site 0 * Site 0 * Site 0) + Num (2#1) / (Site 0 * Site 0 * Site 0);
    Num (-6#1) * Var 23 / (Site 0 * Site 0 * Site 0 * Site 0) + Num (2#1) / (Site 0 * Site 0 * Site 0) + Num (2#1) / (Site 0 * Site 0 * Site 0);
    Num (-6#1) * Var 23 / (Site 0 * Site 0 * Site 0 * Site 0) + Num (2#1) / (Site 0 * Site 0 * Site 0)];
    [Num (-6#1) * Var 23 / (Site 0 * Site 0 * Site 0 * Site 0);
    Num (-6#1) * Var 23 / (Site 0 * Site 0 * Site 0 * Site 0);
    Num (-6#1) * Var 23 / (Site 0 * Site 0 * Site 0 * Site 0);
    Num (-6#1) * Var 23 / (Site 0 * Site 0 * Site 0 * Site 0) + Num (2#1) / (Site 0 * Site 0 * Site 0);
    Num (-6#1) * Var 23 / (Site 0 * Site 0 * Site 0 * Site 0)]]];
    [[[Num (-6#1) * Var 20 / (Site 0 * Site 0 * Site 0 * Site 0) + Num (2#1) / (Site 0 * Site 0 * Site 0) + Num (2#1) / (Site 0 * Site 0 * Site 0) + Num (2#1) / (Site 0 * Site 0 * Site 0);
    Num (-6#1) * Var 20 / (Site 0 * Site 0 * Site 0 * Site 0) + Num (2#1) / (Site 0 * Site 0 * Site 0) + Num (2#1) / (Site 0 * Site 0 * Site 0);
    Num (-6#1) * Var 20 / (Site 0 * Site 0 * Site 0 * Site 0) + Num (2#1) / (Site 0 * Site 0 * Site 0) + Num (2#1) / (Site 0 * Site 0 * Site 0);
    Num (-6#1) * Var 20 / (Site 0 * Site 0 * Site 0 * Site 0) + Num (2#1) / (Site 0 * Site 0 * Site 0) + Num (2#1) / (Site 0 * Site 0 * Site 0);
    Num (-6#1) * Var 20 / (Site 0 * Site 0 * Site 0 * Site 0) + Num (2#1) / (Site 0 * Site 0 * Site 0) + Num (2#1) / (Site 0 * Site 0 * Site 0)];
    [Num (-6#1) * Var 20 / (Site 0 * Site 0 * Site 0 * Site 0) + Num (2#1) / (Site 0 * Site 0 * Site 0) + Num (2#1) / (Site 0 * Site 0 * Site 0);
    Num (-6#1) * Var 20 / (Site 0 * Site 0 * Site 0 * Site 0) + Num (2#1) / (Site 0 * Site 0 * Site 0);
    Num (-6#1) * Var 20 / (Site 0 * Site 0 * Site 0 * Site 0) + Num (2#1) / (Site 0 * Site 0 * Site 0);
    Num (-6#1) * Var 20 / (Site 0 * Site 0 * Site 0 * Site 0) + Num (2#1) / (Site 0 * Site 0 * Site 0);
    Num (-6#1) * Var 20 / (Site 0 * Site 0 * Site 0 * Site 0) + Num (2#1) / (Site 0 * Site 0 * Site 0)];
    [Num (-6#1) * Var 20 / (Site 0 * Site 0 * Site 0 * Site 0) + Num (2#1) / (Site 0 * Site 0 * Site 0) + Num (2#1) / (Site 0 * Site 0 * Site 0);
    Num (-6#1) * Var 20 / (Site 0 * Site 0 * Site 0 * Site 0) + Num (2#1) / (Site 0 * Site 0 * Site 0);
    Num (-6#1) * Var 20 / (Site 0 * Site 0 * Site 0 * Site 0) + Num (2#1) / (Site 0 * Site 0 * Site 0);
    Num (-6#1) * Var 20 / (Site 0 * Site 0 * Site 0 * Site 0) + Num (2#1) / (Site 0 * Site 0 * Site 0);
    Num (-6#1) * Var 20 / (Site 0 * Site 0 * Site 0 * Site 0) + Num (2#1) / (Site 0 * Site 0 * Site 0)];
    [Num (-6#1) * Var 20 / (Site 0 * Site 0 * Site 0 * Site 0) + Num (2#1) / (Site 0 * Site 0 * Site 0) + Num (2#1) / (Site 0 * Site 0 * Site 0);
    Num (-6#1) * Var 20 / (Site 0 * Site 0 * Site 0 * Site 0) + Num (2#1) / (Site 0 * Site 0 * Site 0);
    Num (-6#1) * Var 20 / (Site 0 * Site 0 * Site 0 * Site 0) + Num (2#1) / (Site 0 * Site 0 * Site 0);
    Num (-6#1) * Var 20 / (Site 0 * Site 0 * Site 0 * Site 0) + Num (2#1) / (Site 0 * Site 0 * Site 0);
    Num (-6#1) * Var 20 / (Site 0 * Site 0 * Site 0 * Site 0) + Num (2#1) / (Site 0 * Site 0 * Site 0)];
    [Num (-6#1) * Var 20 / (Site 0 * Site 0 * Site 0 * Site 0) + Num (2#1) / (Site 0 * Site 0 * Site 0) + Num (2#1) / (Site 0 * Site 0 * Site 0);
    Num (-6#1) * Var 20 / (Site 0 * Site 0 * Site 0 * Site 0) + Num (2#1) / (Site 0 * Site 0 * Site 0);
    Num (-6#1) * Var 20 / (Site 0 * Site 0 * Site 0 * Site 0) + Num (2#1) / (Site 0 * Site 0 * Site 0);
    Num (-6#1) * Var 20 / (Site 0 * Site 0 * Site 0 * Site 0) + Num (2#1) / (Site 0 * Site 0 * Site 0);
    Num (-6#1) * Var 20 / (Site 0 * Site 0 * Site 0 * Site 0) + Num (2#1) / (Site 0 * Site 0 * Site 0)]];
    [[Num (-6#1) * Var 20 / (Site 0 * Site 0 * Site 0 * Site 0) + Num (2#1) / (Site 0 * Site 0 * Site 0) + Num (2#1) / (Site 0 * Site 0 * Site 0);
    Num (-6#1) * Var 20 / (Site 0 * Site 0 * Site 0 * Site 0) + Num (2#1) / (Site 0 * Site 0 * Site 0);
    Num (-6#1) * Var 20 / (Site 0 * Site 0 * Site 0 * Site 0) + Num (2#1) / (Site 0 * Site 0 * Site 0);
    Num (-6#1) * Var 20 / (Site 0 * Site 0 * Site 0 * Site 0) + Num (2#1) / (Site 0 * Site 0 * Site 0);
    Num (-6#1) * Var 20 / (Site 0 * Site 0 * Site 0 * Site 0) + Num (2#1) / (Site 0 * Site 0 * Site 0)];
    [Num (-6#1) * Var 20 / (Site 0 * Site 0 * Site 0 * Site 0) + Num (2#1) / (Site 0 * Site 0 * Site 0);
    Num (-6#1) * Var 20 / (Site 0 * Site 0 * Site 0 * Site 0);
    Num (-6#1) * Var 20 / (Site 0 * Site 0 * Site 0 * Site 0);
    Num (-6#1) * Var 20 / (Site 0 * Site 0 * Site 0 * Site 0);
    Num (-6#1) * Var 20 / (Site 0 * Site 0 * Site 0 * Site 0)];
    [Num (-6#1) * Var 20 / (Site 0 * Site 0 * Site 0 * Site 0) + Num (2#1) / (Site 0 * Site 0 * Site 0);
    Num (-6#1) * Var 20 / (Site 0 * Site 0 * Site 0 * Site 0);
    Num (-6#1) * Var 20 / (Site 0 * Site 0 * Site 0 * Site 0);
    Num (-6#1) * Var 20 / (Site 0 * Site 0 * Site 0 * Site 0);
    Num (-6#1) * Var 20 / (Site 0 * Site 0 * Site 0 * Site 0)];
    [Num (-6#1) * Var 20 / (Site 0 * Site 0 * Site 0 * Site 0) + Num (2#1) / (Site 0 * Site 0 * Site 0);
    Num (-6#1) * Var 20 / (Site 0 * Site 0 * Site 0 * Site 0);
    Num (-6#1) * Var 20 / (Site 0 * Site 0 * Site 0 * Site 0);
    Num (-6#1) * Var 20 / (Site 0 * Site 0 * Site 0 * Site 0);
    Num (-6#1) * Var 20 / (Site 0 * Site 0 * Site 0 * Site 0)];
    [Num (-6#1) * Var 20 / (Site 0 * Site 0 * Site 0 * Site 0) + Num (2#1) / (Site 0 * Site 0 * Site 0);
    Num (-6#1) * Var 20 / (Site 0 * Site 0 * Site 0 * Site 0);
    Num (-6#1) * Var 20 / (Site 0 * Site 0 * Site 0 * Site 0);
    Num (-6#1) * Var 20 / (Site 0 * Site 0 * Site 0 * Site 0);
    Num (-6#1) * Var 20 / (Site 0 * Site 0 * Site 0 * Site 0)]];
    [[Num (-6#1) * Var 20 / (Site 0 * Site 0 * Site 0 * Site 0) + Num (2#1) / (Site 0 * Site 0 * Site 0) + Num (2#1) / (Site 0 * Site 0 * Site 0);
    Num (-6#1) * Var 20 / (Site 0 * Site 0 * Site 0 * Site 0) + Num (2#1) / (Site 0 * Site 0 * Site 0);
    Num (-6#1) * Var 20 / (Site 0 * Site 0 * Site 0 * Site 0) + Num (2#1) / (Site 0 * Site 0 * Site 0);
    Num (-6#1) * Var 20 / (Site 0 * Site 0 * Site 0 * Site 0) + Num (2#1) / (Site 0 * Site 0 * Site 0);
    Num (-6#1) * Var 20 / (Site 0 * Site 0 * Site 0 * Site 0) + Num (2#1) / (Site 0 * Site 0 * Site 0)];
    [Num (-6#1) * Var 20 / (Site 0 * Site 0 * Site 0 * Site 0) + Num (2#1) / (Site 0 * Site 0 * Site 0);
    Num (-6#1) * Var 20 / (Site 0 * Site 0 * Site 0 * Site 0);
    Num (-6#1) * Var 20 / (Site 0 * Site 0 * Site 0 * Site 0);
    Num (-6#1) * Var 20 / (Site 0 * Site 0 * Site 0 * Site 0);
    Num (-6#1) * Var 20 / (Site 0 * Site 0 * Site 0 * Site 0)];
    [Num (-6#1) * Var 20 / (Site 0 * Site 0 * Site 0 * Site 0) + Num (2#1) / (Site 0 * Site 0 * Site 0);
    Num (-6#1) * Var 20 / (Site 0 * Site 0 * Site 0 * Site 0);
    Num (-6#1) * Var 20 / (Site 0 * Site 0 * Site 0 * Site 0);
    Num (-6#1) * Var 20 / (Site 0 * Site 0 * Site 0 * Site 0);
    Num (-6#1) * Var 20 / (Site 0 * Site 0 * Site 0 * Site 0)];
    [Num (-6#1) * Var 20 / (Site 0 * Site 0 * Site 0 * Site 0) + Num (2#1) / (Site 0 * Site 0 * Site 0);
    Num (-6#1) * Var 20 / (Site 0 * Site 0 * Site 0 * Site 0);
    Num (-6#1) * Var 20 / (Site 0 * Site 0 * Site 0 * Site 0);
    Num (-6#1) * Var 20 / (Site 0 * Site 0 * Site 0 * Site 0);
    Num (-6#1) * Var 20 / (Site 0 * Site 0 * Site 0 * Site 0)];
    [Num (-6#1) * Var 20 / (Site 0 * Site 0 * Site 0 * Site 0) + Num (2#1) / (Site 0 * Site 0 * Site 0);
    Num (-6#1) * Var 20 / (Site 0 * Site 0 * Site 0 * Site 0);
    Num (-6#1) * Var 20 / (Site 0 * Site 0 * Site 0 * Site 0);
    Num (-6#1) * Var 20 / (Site 0 * Site 0 * Site 0 * Site 0);
    Num (-6#1) * Var 20 / (Site 0 * Site 0 * Site 0 * Site 0)]];
    [[Num (-6#1) * Var 20 / (Site 0 * Site 0 * Site 0 * Site 0) + Num (2#1) / (Site 0 * Site 0 * Site 0) + Num (2#1) / (Site 0 * Site 0 * Site 0);
    Num (-6#1) * Var 20 / (Site 0 * Site 0 * Site 0 * Site 0) + Num (2#1) / (Site 0 * Site 0 * Site 0);
    Num (-6#1) * Var 20 / (Site 0 * Site 0 * Site 0 * Site 0) + Num (2#1) / (Site 0 * Site 0 * Site 0);
    Num (-6#1) * Var 20 / (Site 0 * Site 0 * Site 0 * Site 0) + Num (2#1) / (Site 0 * Site 0 * Site 0);
    Num (-6#1) * Var 20 / (Site 0 * Site 0 * Site 0 * Site 0) + Num (2#1) / (Site 0 * Site 0 * Site 0)];
    [Num (-6#1) * Var 20 / (Site 0 * Site 0 * Site 0 * Site 0) + Num (2#1) / (Site 0 * Site 0 * Site 0);
    Num (-6#1) * Var 20 / (Site 0 * Site 0 * Site 0 * Site 0);
    Num (-6#1) * Var 20 / (Site 0 * Site 0 * Site 0 * Site 0);
    Num (-6#1) * Var 20 / (Site 0 * Site 0 * Site 0 * Site 0);
    Num (-6#1) * Var 20 / (Site 0 * Site 0 * Site 0 * Site 0)];
    [Num (-6#1) * Var 20 / (Site 0 * Site 0 * Site 0 * Site 0) + Num (2#1) / (Site 0 * Site 0 * Site 0);
    Num (-6#1) * Var 20 / (Site 0 * Site 0 * Site 0 * Site 0);
    Num (-6#1) * Var 20 / (Site 0 * Site 0 * Site 0 * Site 0);
    Num (-6#1) * Var 20 / (Site 0 * Site 0 * Site 0 * Site 0);
    Num (-6#1) * Var 20 / (Site 0 * Site 0 * Site 0 * Site 0)];
    [Num (-6#1) * Var 20 / (Site 0 * Site 0 * Site 0 * Site 0) + Num (2#1) / (Site 0 * Site 0 * Site 0);
    Num (-6#1) * Var 20 / (Site 0 * Site 0 * Site 0 * Site 0);
    Num (-6#1) * Var 20 / (Site 0 * Site 0 * Site 0 * Site 0);
    Num (-6#1) * Var 20 / (Site 0 * Site 0 * Site 0 * Site 0);
    Num (-6#1) * Var 20 / (Site 0 * Site 0 * Site 0 * Site 0)];
    [Num (-6#1) * Var 20 / (Site 0 * Site 0 * Site 0 * Site 0) + Num (2#1) / (Site 0 * Site 0 * Site 0);
    Num (-6#1) * Var 20 / (Site 0 * Site 0 * Site 0 * Site 0);
    Num (-6#1) * Var 20 / (Site 0 * Site 0 * Site 0 * Site 0);
    Num (-6#1) * Var 20 / (Site 0 * Site 0 * Site 0 * Site 0);
    Num (-6#1) * Var 20 / (Site 0 * Site 0 * Site 0 * Site 0)]];
    [[Num (-6#1) * Var 20 / (Site 0 * Site 0 * Site 0 * Site 0) + Num (2#1) / (Site 0 * Site 0 * Site 0) + Num (2#1) / (Site 0 * Site 0 * Site 0);
    Num (-6#1) * Var 20 / (Site 0 * Site 0 * Site 0 * Site 0) + Num (2#1) / (Site 0 * Site 0 * Site 0);
    Num (-6#1) * Var 20 / (Site 0 * Site 0 * Site 0 * Site 0) + Num (2#1) / (Site 0 * Site 0 * Site 0);
    Num (-6#1) * Var 20 / (Site 0 * Site 0 * Site 0 * Site 0) + Num (2#1) / (Site 0 * Site 0 * Site 0);
    Num (-6#1) * Var 20 / (Site 0 * Site 0 * Site 0 * Site 0) + Num (2#1) / (Site 0 * Site 0 * Site 0)];
    [Num (-6#1) * Var 20 / (Site 0 * Site 0 * Site 0 * Site 0) + Num (2#1) / (Site 0 * Site 0 * Site 0);
    Num (-6#1) * Var 20 / (Site 0 * Site 0 * Site 0 * Site 0);
    Num (-6#1) * Var 20 / (Site 0 * Site 0 * Site 0 * Site 0);
    Num (-6#1) * Var 20 / (Site 0 * Site 0 * Site 0 * Site 0);
    Num (-6#1) * Var 20 / (Site 0 * Site 0 * Site 0 * Site 0)];
    [Num (-6#1) * Var 20 / (Site 0 * Site 0 * Site 0 * Site 0) + Num (2#1) / (Site 0 * Site 0 * Site 0);
    Num (-6#1) * Var 20 / (Site 0 * Site 0 * Site 0 * Site 0);
    Num (-6#1) * Var 20 / (Site 0 * Site 0 * Site 0 * Site 0);
    Num (-6#1) * Var 20 / (Site 0 * Site 0 * Site 0 * Site 0);
    Num (-6#1) * Var 20 / (Site 0 * Site 0 * Site 0 * Site 0)];
    [Num (-6#1) * Var 20 / (Site 0 * Site 0 * Site 0 * Site 0) + Num (2#1) / (Site 0 * Site 0 * Site 0);
    Num (-6#1) * Var 20 / (Site 0 * Site 0 * Site 0 * Site 0);
    Num (-6#1) * Var 20 / (Site 0 * Site 0 * Site 0 * Site 0);
    Num (-6#1) * Var 20 / (Site 0 * Site 0 * Site 0 * Site 0);
    Num (-6#1) * Var 20 / (Site 0 * Site 0 * Site 0 * Site 0)];
    [Num (-6#1) * Var 20 / (Site 0 * Site 0 * Site 0 * Site 0) + Num (2#1) / (Site 0 * Site 0 * Site 0);
    Num (-6#1) * Var 20 / (Site 0 * Site 0 * Site 0 * Site 0);
    Num (-6#1) * Var 20 / (Site 0 * Site 0 * Site 0 * Site 0);
    Num (-6#1) * Var 20 / (Site 0 * Site 0 * Site 0 * Site 0);
    Num (-6#1) * Var 20 / (Site 0 * Site 0 * Site 0 * Site 0)]]];
    [[[Num (-6#1) * Var 24 / (Site 0 * Site 0 * Site 0 * Site 0);
    Num (-6#1) * Var 24 / (Site 0 * Site 0 * Site 0 * Site 0);
    Num (-6#1) * Var 24 / (Site 0 * Site 0 * Site 0 * Site 0);
    Num (-6#1) * Var 24 / (Site 0 * Site 0 * Site 0 * Site 0);
    Num (-6#1) * Var 24 / (Site 0 * Site 0 * Site 0 * Site 0) + Num (2#1) / (Site 0 * Site 0 * Site 0)];
    [Num (-6#1) * Var 24 / (Site 0 * Site 0 * Site 0 * Site 0);
    Num (-6#1) * Var 24 / (Site 0 * Site 0 * Site 0 * Site 0);
    Num (-6#1) * Var 24 / (Site 0 * Site 0 * Site 0 * Site 0);
    Num (-6#1) * Var 24 / (Site 0 * Site 0 * Site 0 * Site 0);
    Num (-6#1) * Var 24 / (Site 0 * Site 0 * Site 0 * Site 0) + Num (2#1) / (Site 0 * Site 0 * Site 0)];
    [Num (-6#1) * Var 24 / (Site 0 * Site 0 * Site 0 * Site 0);
    Num (-6#1) * Var 24 / (Site 0 * Site 0 * Site 0 * Site 0);
    Num (-6#1) * Var 24 / (Site 0 * Site 0 * Site 0 * Site 0);
    Num (-6#1) * Var 24 / (Site 0 * Site 0 * Site 0 * Site 0);
    Num (-6#1) * Var 24 / (Site 0 * Site 0 * Site 0 * Site 0) + Num (2#1) / (Site 0 * Site 0 * Site 0)];
    [Num (-6#1) * Var 24 / (Site 0 * Site 0 * Site 0 * Site 0);
    Num (-6#1) * Var 24 / (Site 0 * Site 0 * Site 0 * Site 0);
    Num (-6#1) * Var 24 / (Site 0 * Site 0 * Site 0 * Site 0);
    Num (-6#1) * Var 24 / (Site 0 * Site 0 * Site 0 * Site 0);
    Num (-6#1) * Var 24 / (Site 0 * Site 0 * Site 0 * Site 0) + Num (2#1) / (Site 0 * Site 0 * Site 0)];
    [Num (-6#1) * Var 24 / (Site 0 * Site 0 * Site 0 * Site 0) + Num (2#1) / (Site 0 * Site 0 * Site 0);
    Num (-6#1) * Var 24 / (Site 0 * Site 0 * Site 0 * Site 0) + Num (2#1) / (Site 0 * Site 0 * Site 0);
    Num (-6#1) * Var 24 / (Site 0 * Site 0 * Site 0 * Site 0) + Num (2#1) / (Site 0 * Site 0 * Site 0);
    Num (-6#1) * Var 24 / (Site 0 * Site 0 * Site 0 * Site 0) + Num (2#1) / (Site 0 * Site 0 * Site 0);
    Num (-6#1) * Var 24 / (Site 0 * Site 0 * Site 0 * Site 0) + Num (2#1) / (Site 0 * Site 0 * Site 0) + Num (2#1) / (Site 0 * Site 0 * Site 0)]];
    [[Num (-6#1) * Var 24 / (Site 0 * Site 0 * Site 0 * Site 0);
    Num (-6#1) * Var 24 / (Site 0 * Site 0 * Site 0 * Site 0);
    Num (-6#1) * Var 24 / (Site 0 * Site 0 * Site 0 * Site 0);
    Num (-6#1) * Var 24 / (Site 0 * Site 0 * Site 0 * Site 0);
    Num (-6#1) * Var 24 / (Site 0 * Site 0 * Site 0 * Site 0) + Num (2#1) / (Site 0 * Site 0 * Site 0)];
    [Num (-6#1) * Var 24 / (Site 0 * Site 0 * Site 0 * Site 0);
    Num (-6#1) * Var 24 / (Site 0 * Site 0 * Site 0 * Site 0);
    Num (-6#1) * Var 24 / (Site 0 * Site 0 * Site 0 * Site 0);
    Num (-6#1) * Var 24 / (Site 0 * Site 0 * Site 0 * Site 0);
    Num (-6#1) * Var 24 / (Site 0 * Site 0 * Site 0 * Site 0) + Num (2#1) / (Site 0 * Site 0 * Site 0)];
    [Num (-6#1) * Var 24 / (Site 0 * Site 0 * Site 0 * Site 0);
    Num (-6#1) * Var 24 / (Site 0 * Site 0 * Site 0 * Site 0);
    Num (-6#1) * Var 24 / (Site 0 * Site 0 * Site 0 * Site 0);
    Num (-6#1) * Var 24 / (Site 0 * Site 0 * Site 0 * Site 0);
    Num (-6#1) * Var 24 / (Site 0 * Site 0 * Site 0 * Site 0) + Num (2#1) / (Site 0 * Site 0 * Site 0)];
    [Num (-6#1) * Var 24 / (Site 0 * Site 0 * Site 0 * Site 0);
    Num (-6#1) * Var 24 / (Site 0 * Site 0 * Site 0 * Site 0);
    Num (-6#1) * Var 24 / (Site 0 * Site 0 * Site 0 * Site 0);
    Num (-6#1) * Var 24 / (Site 0 * Site 0 * Site 0 * Site 0);
    Num (-6#1) * Var 24 / (Site 0 * Site 0 * Site 0 * Site 0) + Num (2#1) / (Site 0 * Site 0 * Site 0)];
    [Num (-6#1) * Var 24 / (Site 0 * Site 0 * Site 0 * Site 0) + Num (2#1) / (Site 0 * Site 0 * Site 0);
    Num (-6#1) * Var 24 / (Site 0 * Site 0 * Site 0 * Site 0) + Num (2#1) / (Site 0 * Site 0 * Site 0);
    Num (-6#1) * Var 24 / (Site 0 * Site 0 * Site 0 * Site 0) + Num (2#1) / (Site 0 * Site 0 * Site 0);
    Num (-6#1) * Var 24 / (Site 0 * Site 0 * Site 0 * Site 0) + Num (2#1) / (Site 0 * Site 0 * Site 0);
    Num (-6#1) * Var 24 / (Site 0 * Site 0 * Site 0 * Site 0) + Num (2#1) / (Site 0 * Site 0 * Site 0) + Num (2#1) / (Site 0 * Site 0 * Site 0)]];
    [[Num (-6#1) * Var 24 / (Site 0 * Site 0 * Site 0 * Site 0);
    Num (-6#1) * Var 24 / (Site 0 * Site 0 * Site 0 * Site 0);
    Num (-6#1) * Var 24 / (Site 0 * Site 0 * Site 0 * Site 0);
    Num (-6#1) * Var 24 / (Site 0 * Site 0 * Site 0 * Site 0);
    Num (-6#1) * Var 24 / (Site 0 * Site 0 * Site 0 * Site 0) + Num (2#1) / (Site 0 * Site 0 * Site 0)];
    [Num (-6#1) * Var 24 / (Site 0 * Site 0 * Site 0 * Site 0);
    Num (-6#1) * Var 24 / (Site 0 * Site 0 * Site 0 * Site 0);
    Num (-6#1) * Var 24 / (Site 0 * Site 0 * Site 0 * Site 0);
    Num (-6#1) * Var 24 / (Site 0 * Site 0 * Site 0 * Site 0);
    Num (-6#1) * Var 24 / (Site 0 * Site 0 * Site 0 * Site 0) + Num (2#1) / (Site 0 * Site 0 * Site 0)];
    [Num (-6#1) * Var 24 / (Site 0 * Site 0 * Site 0 * Site 0);
    Num (-6#1) * Var 24 / (Site 0 * Site 0 * Site 0 * Site 0);
    Num (-6#1) * Var 24 / (Site 0 * Site 0 * Site 0 * Site 0);
    Num (-6#1) * Var 24 / (Site 0 * Site 0 * Site 0 * Site 0);
    Num (-6#1) * Var 24 / (Site 0 * Site 0 * Site 0 * Site 0) + Num (2#1) / (Site 0 * Site 0 * Site 0)];
    [Num (-6#1) * Var 24 / (Site 0 * Site 0 * Site 0 * Site 0);
    Num (-6#1) * Var 24 / (Site 0 * Site 0 * Site 0 * Site 0);
    Num (-6#1) * Var 24 / (Site 0 * Site 0 * Site 0 * Site 0);
    Num (-6#1) * Var 24 / (Site 0 * Site 0 * Site 0 * Site 0);
    Num (-6#1) * Var 24 / (Site 0 * Site 0 * Site 0 * Site 0) + Num (2#1) / (Site 0 * Site 0 * Site 0)];
    [Num (-6#1) * Var 24 / (Site 0 * Site 0 * Site 0 * Site 0) + Num (2#1) / (Site 0 * Site 0 * Site 0);
    Num (-6#1) * Var 24 / (Site 0 * Site 0 * Site 0 * Site 0) + Num (2#1) / (Site 0 * Site 0 * Site 0);
    Num (-6#1) * Var 24 / (Site 0 * Site 0 * Site 0 * Site 0) + Num (2#1) / (Site 0 * Site 0 * Site 0);
    Num (-6#1) * Var 24 / (Site 0 * Site 0 * Site 0 * Site 0) + Num (2#1) / (Site 0 * Site 0 * Site 0);
    Num (-6#1) * Var 24 / (Site 0 * Site 0 * Site 0 * Site 0) + Num (2#1) / (Site 0 * Site 0 * Site 0) + Num (2#1) / (Site 0 * Site 0 * Site 0)]];
    [[Num (-6#1) * Var 24 / (Site 0 * Site 0 * Site 0 * Site 0);
    Num (-6#1) * Var 24 / (Site 0 * Site 0 * Site 0 * Site 0);
    Num (-6#1) * Var 24 / (Site 0 * Site 0 * Site 0 * Site 0);
    Num (-6#1) * Var 24 / (Site 0 * Site 0 * Site 0 * Site 0);
    Num (-6#1) * Var 24 / (Site 0 * Site 0 * Site 0 * Site 0) + Num (2#1) / (Site 0 * Site 0 * Site 0)];
    [Num (-6#1) * Var 24 / (Site 0 * Site 0 * Site 0 * Site 0);
    Num (-6#1) * Var 24 / (Site 0 * Site 0 * Site 0 * Site 0);
    Num (-6#1) * Var 24 / (Site 0 * Site 0 * Site 0 * Site 0);
    Num (-6#1) * Var 24 / (Site 0 * Site 0 * Site 0 * Site 0);
    Num (-6#1) * Var 24 / (Site 0 * Site 0 * Site 0 * Site 0) + Num (2#1) / (Site 0 * Site 0 * Site 0)];
    [Num (-6#1) * Var 24 / (Site 0 * Site 0 * Site 0 * Site 0);
    Num (-6#1) * Var 24 / (Site 0 * Site 0 * Site 0 * Site 0);
    Num (-6#1) * Var 24 / (Site 0 * Site 0 * Site 0 * Site 0);
    Num (-6#1) * Var 24 / (Site 0 * Site 0 * Site 0 * Site 0);
    Num (-6#1) * Var 24 / (Site 0 * Site 0 * Site 0 * Site 0) + Num (2#1) / (Site 0 * Site 0 * Site 0)];
    [Num (-6#1) * Var 24 / (Site 0 * Site 0 * Site 0 * Site 0);
    Num (-6#1) * Var 24 / (Site 0 * Site 0 * Site 0 * Site 0);
    Num (-6#1) * Var 24 / (Site 0 * Site 0 * Site 0 * Site 0);
    Num (-6#1) * Var 24 / (Site 0 * Site 0 * Site 0 * Site 0);
    Num (-6#1) * Var 24 / (Site 0 * Site 0 * Site 0 * Site 0) + Num (2#1) / (Site 0 * Site 0 * Site 0)];
    [Num (-6#1) * Var 24 / (Site 0 * Site 0 * Site 0 * Site 0) + Num (2#1) / (Site 0 * Site 0 * Site 0);
    Num (-6#1) * Var 24 / (Site 0 * Site 0 * Site 0 * Site 0) + Num (2#1) / (Site 0 * Site 0 * Site 0);
    Num (-6#1) * Var 24 / (Site 0 * Site 0 * Site 0 * Site 0) + Num (2#1) / (Site 0 * Site 0 * Site 0);
    Num (-6#1) * Var 24 / (Site 0 * Site 0 * Site 0 * Site 0) + Num (2#1) / (Site 0 * Site 0 * Site 0);
    Num (-6#1) * Var 24 / (Site 0 * Site 0 * Site 0 * Site 0) + Num (2#1) / (Site 0 * Site 0 * Site 0) + Num (2#1) / (Site 0 * Site 0 * Site 0)]];
    [[Num (-6#1) * Var 24 / (Site 0 * Site 0 * Site 0 * Site 0) + Num (2#1) / (Site 0 * Site 0 * Site 0);
    Num (-6#1) * Var 24 / (Site 0 * Site 0 * Site 0 * Site 0) + Num (2#1) / (Site 0 * Site 0 * Site 0);
    Num (-6#1) * Var 24 / (Site 0 * Site 0 * Site 0 * Site 0) + Num (2#1) / (Site 0 * Site 0 * Site 0);
    Num (-6#1) * Var 24 / (Site 0 * Site 0 * Site 0 * Site 0) + Num (2#1) / (Site 0 * Site 0 * Site 0);
    Num (-6#1) * Var 24 / (Site 0 * Site 0 * Site 0 * Site 0) + Num (2#1) / (Site 0 * Site 0 * Site 0) + Num (2#1) / (Site 0 * Site 0 * Site 0)];
    [Num (-6#1) * Var 24 / (Site 0 * Site 0 * Site 0 * Site 0) + Num (2#1) / (Site 0 * Site 0 * Site 0);
    Num (-6#1) * Var 24 / (Site 0 * Site 0 * Site 0 * Site 0) + Num (2#1) / (Site 0 * Site 0 * Site 0);
    Num (-6#1) * Var 24 / (Site 0 * Site 0 * Site 0 * Site 0) + Num (2#1) / (Site 0 * Site 0 * Site 0);
    Num (-6#1) * Var 24 / (Site 0 * Site 0 * Site 0 * Site 0) + Num (2#1) / (Site 0 * Site 0 * Site 0);
    Num (-6#1) * Var 24 / (Site 0 * Site 0 * Site 0 * Site 0) + Num (2#1) / (Site 0 * Site 0 * Site 0) + Num (2#1) / (Site 0 * Site 0 * Site 0)];
    [Num (-6#1) * Var 24 / (Site 0 * Site 0 * Site 0 * Site 0) + Num (2#1) / (Site 0 * Site 0 * Site 0);
    Num (-6#1) * Var 24 / (Site 0 * Site 0 * Site 0 * Site 0) + Num (2#1) / (Site 0 * Site 0 * Site 0);
    Num (-6#1) * Var 24 / (Site 0 * Site 0 * Site 0 * Site 0) + Num (2#1) / (Site 0 * Site 0 * Site 0);
    Num (-6#1) * Var 24 / (Site 0 * Site 0 * Site 0 * Site 0) + Num (2#1) / (Site 0 * Site 0 * Site 0);
    Num (-6#1) * Var 24 / (Site 0 * Site 0 * Site 0 * Site 0) + Num (2#1) / (Site 0 * Site 0 * Site 0) + Num (2#1) / (Site 0 * Site 0 * Site 0)];
    [Num (-6#1) * Var 24 / (Site 0 * Site 0 * Site 0 * Site 0) + Num (2#1) / (Site 0 * Site 0 * Site 0);
    Num (-6#1) * Var 24 / (Site 0 * Site 0 * Site 0 * Site 0) + Num (2#1) / (Site 0 * Site 0 * Site 0);
    Num (-6#1) * Var 24 / (Site 0 * Site 0 * Site 0 * Site 0) + Num (2#1) / (Site 0 * Site 0 * Site 0);
    Num (-6#1) * Var 24 / (Site 0 * Site 0 * Site 0 * Site 0) + Num (2#1) / (Site 0 * Site 0 * Site 0);
    Num (-6#1) * Var 24 / (Site 0 * Site 0 * Site 0 * Site 0) + Num (2#1) / (Site 0 * Site 0 * Site 0) + Num (2#1) / (Site 0 * Site 0 * Site 0)];
    [Num (-6#1) * Var 24 / (Site 0 * Site 0 * Site 0 * Site 0) + Num (2#1) / (Site 0 * Site 0 * Site 0) + Num (2#1) / (Site 0 * Site 0 * Site 0);
    Num (-6#1) * Var 24 / (Site 0 * Site 0 * Site 0 * Site 0) + Num (2#1) / (Site 0 * Site 0 * Site 0) + Num (2#1) / (Site 0 * Site 0 * Site 0);
    Num (-6#1) * Var 24 / (Site 0 * Site 0 * Site 0 * Site 0) + Num (2#1) / (Site 0 * Site 0 * Site 0) + Num (2#1) / (Site 0 * Site 0 * Site 0);
    Num (-6#1) * Var 24 / (Site 0 * Site 0 * Site 0 * Site 0) + Num (2#1) / (Site 0 * Site 0 * Site 0) + Num (2#1) / (Site 0 * Site 0 * Site 0);
    Num (-6#1) * Var 24 / (Site 0 * Site 0 * Site 0 * Site 0) + Num (2#1) / (Site 0 * Site 0 * Site 0) + Num (2#1) / (Site 0 * Site 0 * Site 0) + Num (2#1) / (Site 0 * Site 0 * Site 0)]]];
    [[[Num (-6#1) * Var 22 / (Site 0 * Site 0 * Site 0 * Site 0);
    Num (-6#1) * Var 22 / (Site 0 * Site 0 * Site 0 * Site 0);
    Num (-6#1) * Var 22 / (Site 0 * Site 0 * Site 0 * Site 0) + Num (2#1) / (Site 0 * Site 0 * Site 0);
    Num (-6#1) * Var 22 / (Site 0 * Site 0 * Site 0 * Site 0);
    Num (-6#1) * Var 22 / (Site 0 * Site 0 * Site 0 * Site 0)];
    [Num (-6#1) * Var 22 / (Site 0 * Site 0 * Site 0 * Site 0);
    Num (-6#1) * Var 22 / (Site 0 * Site 0 * Site 0 * Site 0);
    Num (-6#1) * Var 22 / (Site 0 * Site 0 * Site 0 * Site 0) + Num (2#1) / (Site 0 * Site 0 * Site 0);
    Num (-6#1) * Var 22 / (Site 0 * Site 0 * Site 0 * Site 0);
    Num (-6#1) * Var 22 / (Site 0 * Site 0 * Site 0 * Site 0)];
    [Num (-6#1) * Var 22 / (Site 0 * Site 0 * Site 0 * Site 0) + Num (2#1) / (Site 0 * Site 0 * Site 0);
    Num (-6#1) * Var 22 / (Site 0 * Site 0 * Site 0 * Site 0) + Num (2#1) / (Site 0 * Site 0 * Site 0);
    Num (-6#1) * Var 22 / (Site 0 * Site 0 * Site 0 * Site 0) + Num (2#1) / (Site 0 * Site 0 * Site 0) + Num (2#1) / (Site 0 * Site 0 * Site 0);
    Num (-6#1) * Var 22 / (Site 0 * Site 0 * Site 0 * Site 0) + Num (2#1) / (Site 0 * Site 0 * Site 0);
    Num (-6#1) * Var 22 / (Site 0 * Site 0 * Site 0 * Site 0) + Num (2#1) / (Site 0 * Site 0 * Site 0)];
    [Num (-6#1) * Var 22 / (Site 0 * Site 0 * Site 0 * Site 0);
    Num (-6#1) * Var 22 / (Site 0 * Site 0 * Site 0 * Site 0);
    Num (-6#1) * Var 22 / (Site 0 * Site 0 * Site 0 * Site 0) + Num (2#1) / (Site 0 * Site 0 * Site 0);
    Num (-6#1) * Var 22 / (Site 0 * Site 0 * Site 0 * Site 0);
    Num (-6#1) * Var 22 / (Site 0 * Site 0 * Site 0 * Site 0)];
    [Num (-6#1) * Var 22 / (Site 0 * Site 0 * Site 0 * Site 0);
    Num (-6#1) * Var 22 / (Site 0 * Site 0 * Site 0 * Site 0);
    Num (-6#1) * Var 22 / (Site 0 * Site 0 * Site 0 * Site 0) + Num (2#1) / (Site 0 * Site 0 * Site 0);
    Num (-6#1) * Var 22 / (Site 0 * Site 0 * Site 0 * Site 0);
    Num (-6#1) * Var 22 / (Site 0 * Site 0 * Site 0 * Site 0)]];
    [[Num (-6#1) * Var 22 / (Site 0 * Site 0 * Site 0 * Site 0);
    Num (-6#1) * Var 22 / (Site 0 * Site 0 * Site 0 * Site 0);
    Num (-6#1) * Var 22 / (Site 0 * Site 0 * Site 0 * Site 0) + Num (2#1) / (Site 0 * Site 0 * Site 0);
    Num (-6#1) * Var 22 / (Site 0 * Site 0 * Site 0 * Site 0);
    Num (-6#1) * Var 22 / (Site 0 * Site 0 * Site 0 * Site 0)];
    [Num (-6#1) * Var 22 / (Site 0 * Site 0 * Site 0 * Site 0);
    Num (-6#1) * Var 22 / (Site 0 * Site 0 * Site 0 * Site 0);
    Num (-6#1) * Var 22 / (Site 0 * Site 0 * Site 0 * Site 0) + Num (2#1) / (Site 0 * Site 0 * Site 0);
    Num (-6#1) * Var 22 / (Site 0 * Site 0 * Site 0 * Site 0);
    Num (-6#1) * Var 22 / (Site 0 * Site 0 * Site 0 * Site 0)];
    [Num (-6#1) * Var 22 / (Site 0 * Site 0 * Site 0 * Site 0) + Num (2#1) / (Site 0 * Site 0 * Site 0);
    Num (-6#1) * Var 22 / (Site 0 * Site 0 * Site 0 * Site 0) + Num (2#1) / (Site 0 * Site 0 * Site 0);
    Num (-6#1) * Var 22 / (Site 0 * Site 0 * Site 0 * Site 0) + Num (2#1) / (Site 0 * Site 0 * Site 0) + Num (2#1) / (Site 0 * Site 0 * Site 0);
    Num (-6#1) * Var 22 / (Site 0 * Site 0 * Site 0 * Site 0) + Num (2#1) / (Site 0 * Site 0 * Site 0);
    Num (-6#1) * Var 22 / (Site 0 * Site 0 * Site 0 * Site 0) + Num (2#1) / (Site 0 * Site 0 * Site 0)];
    [Num (-6#1) * Var 22 / (Site 0 * Site 0 * Site 0 * Site 0);
    Num (-6#1) * Var 22 / (Site 0 * Site 0 * Site 0 * Site 0);
    Num (-6#1) * Var 22 / (Site 0 * Site 0 * Site 0 * Site 0) + Num (2#1) / (Site 0 * Site 0 * Site 0);
    Num (-6#1) * Var 22 / (Site 0 * Site 0 * Site 0 * Site 0);
    Num (-6#1) * Var 22 / (Site 0 * Site 0 * Site 0 * Site 0)];
    [Num (-6#1) * Var 22 / (Site 0 * Site 0 * Site 0 * Site 0);
    Num (-6#1) * Var 22 / (Site 0 * Site 0 * Site 0 * Site 0);
    Num (-6#1) * Var 22 / (Site 0 * Site 0 * Site 0 * Site 0) + Num (2#1) / (Site 0 * Site 0 * Site 0);
    Num (-6#1) * Var 22 / (Site 0 * Site 0 * Site 0 * Site 0);
    Num (-6#1) * Var 22 / (Site 0 * Site 0 * Site 0 * Site 0)]];
    [[Num (-6#1) * Var 22 / (Site 0 * Site 0 * Site 0 * Site 0) + Num (2#1) / (Site 0 * Site 0 * Site 0);
    Num (-6#1) * Var 22 / (Site 0 * Site 0 * Site 0 * Site 0) + Num (2#1) / (Site 0 * Site 0 * Site 0);
    Num (-6#1) * Var 22 / (Site 0 * Site 0 * Site 0 * Site 0) + Num (2#1) / (Site 0 * Site 0 * Site 0) + Num (2#1) / (Site 0 * Site 0 * Site 0);
    Num (-6#1) * Var 22 / (Site 0 * Site 0 * Site 0 * Site 0) + Num (2#1) / (Site 0 * Site 0 * Site 0);
    Num (-6#1) * Var 22 / (Site 0 * Site 0 * Site 0 * Site 0) + Num (2#1) / (Site 0 * Site 0 * Site 0)];
    [Num (-6#1) * Var 22 / (Site 0 * Site 0 * Site 0 * Site 0) + Num (2#1) / (Site 0 * Site 0 * Site 0);
    Num (-6#1) * Var 22 / (Site 0 * Site 0 * Site 0 * Site 0) + Num (2#1) / (Site 0 * Site 0 * Site 0);
    Num (-6#1) * Var 22 / (Site 0 * Site 0 * Site 0 * Site 0) + Num (2#1) / (Site 0 * Site 0 * Site 0) + Num (2#1) / (Site 0 * Site 0 * Site 0);
    Num (-6#1) * Var 22 / (Site 0 * Site 0 * Site 0 * Site 0) + Num (2#1) / (Site 0 * Site 0 * Site 0);
    Num (-6#1) * Var 22 / (Site 0 * Site 0 * Site 0 * Site 0) + Num (2#1) / (Site 0 * Site 0 * Site 0)];
    [Num (-6#1) * Var 22 / (Site 0 * Site 0 * Site 0 * Site 0) + Num (2#1) / (Site 0 * Site 0 * Site 0) + Num (2#1) / (Site 0 * Site 0 * Site 0);
    Num (-6#1) * Var 22 / (Site 0 * Site 0 * Site 0 * Site 0) + Num (2#1) / (Site 0 * Site 0 * Site 0) + Num (2#1) / (Site 0 * Site 0 * Site 0);
    Num (-6#1) * Var 22 / (Site 0 * Site 0 * Site 0 * Site 0) + Num (2#1) / (Site 0 * Site 0 * Site 0) + Num (2#1) / (Site 0 * Site 0 * Site 0) + Num (2#1) / (Site 0 * Site 0 * Site 0);
    Num (-6#1) * Var 22 / (Site 0 * Site 0 * Site 0 * Site 0) + Num (2#1) / (Site 0 * Site 0 * Site 0) + Num (2#1) / (Site 0 * Site 0 * Site 0);
    Num (-6#1) * Var 22 / (Site 0 * Site 0 * Site 0 * Site 0) + Num (2#1) / (Site 0 * Site 0 * Site 0) + Num (2#1) / (Site 0 * Site 0 * Site 0)];
    [Num (-6#1) * Var 22 / (Site 0 * Site 0 * Site 0 * Site 0) + Num (2#1) / (Site 0 * Site 0 * Site 0);
    Num (-6#1) * Var 22 / (Site 0 * Site 0 * Site 0 * Site 0) + Num (2#1) / (Site 0 * Site 0 * Site 0);
    Num (-6#1) * Var 22 / (Site 0 * Site 0 * Site 0 * Site 0) + Num (2#1) / (Site 0 * Site 0 * Site 0) + Num (2#1) / (Site 0 * Site 0 * Site 0);
    Num (-6#1) * Var 22 / (Site 0 * Site 0 * Site 0 * Site 0) + Num (2#1) / (Site 0 * Site 0 * Site 0);
    Num (-6#1) * Var 22 / (Site 0 * Site 0 * Site 0 * Site 0) + Num (2#1) / (Site 0 * Site 0 * Site 0)];
    [Num (-6#1) * Var 22 / (Site 0 * Site 0 * Site 0 * Site 0) + Num (2#1) / (Site 0 * Site 0 * Site 0);
    Num (-6#1) * Var 22 / (Site 0 * Site 0 * Site 0 * Site 0) + Num (2#1) / (Site 0 * Site 0 * Site 0);
    Num (-6#1) * Var 22 / (Site 0 * Site 0 * Site 0 * Site 0) + Num (2#1) / (Site 0 * Site 0 * Site 0) + Num (2#1) / (Site 0 * Site 0 * Site 0);
    Num (-6#1) * Var 22 / (Site 0 * Site 0 * Site 0 * Site 0) + Num (2#1) / (Site 0 * Site 0 * Site 0);
    Num (-6#1) * Var 22 / (Site 0 * Site 0 * Site 0 * Site 0) + Num (2#1) / (Site 0 * Site 0 * Site 0)]];
    [[Num (-6#1) * Var 22 / (Site 0 * Site 0 * Site 0 * Site 0);
    Num (-6#1) * Var 22 / (Site 0 * Site 0 * Site 0 * Site 0);
    Num (-6#1) * Var 22 / (Site 0 * Site 0 * Site 0 * Site 0) + Num (2#1) / (Site 0 * Site 0 * Site 0);
    Num (-6#1) * Var 22 / (Site 0 * Site 0 * Site 0 * Site 0);
    Num (-6#1) * Var 22 / (Site 0 * Site 0 * Site 0 * Site 0)];
    [Num (-6#1) * Var 22 / (Site 0 * Site 0 * Site 0 * Site 0);
    Num (-6#1) * Var 22 / (Site 0 * Site 0 * Site 0 * Site 0);
    Num (-6#1) * Var 22 / (Site 0 * Site 0 * Site 0 * Site 0) + Num (2#1) / (Site 0 * Site 0 * Site 0);
    Num (-6#1) * Var 22 / (Site 0 * Site 0 * Site 0 * Site 0);
    Num (-6#1) * Var 22 / (Site 0 * Site 0 * Site 0 * Site 0)];
    [Num (-6#1) * Var 22 / (Site 0 * Site 0 * Site 0 * Site 0) + Num (2#1) / (Site 0 * Site 0 * Site 0);
    Num (-6#1) * Var 22 / (Site 0 * Site 0 * Site 0 * Site 0) + Num (2#1) / (Site 0 * Site 0 * Site 0);
    Num (-6#1) * Var 22 / (Site 0 * Site 0 * Site 0 * Site 0) + Num (2#1) / (Site 0 * Site 0 * Site 0) + Num (2#1) / (Site 0 * Site 0 * Site 0);
    Num (-6#1) * Var 22 / (Site 0 * Site 0 * Site 0 * Site 0) + Num (2#1) / (Site 0 * Site 0 * Site 0);
    Num (-6#1) * Var 22 / (Site 0 * Site 0 * Site 0 * Site 0) + Num (2#1) / (Site 0 * Site 0 * Site 0)];
    [Num (-6#1) * Var 22 / (Site 0 * Site 0 * Site 0 * Site 0);
    Num (-6#1) * Var 22 / (Site 0 * Site 0 * Site 0 * Site 0);
    Num (-6#1) * Var 22 / (Site 0 * Site 0 * Site 0 * Site 0) + Num (2#1) / (Site 0 * Site 0 * Site 0);
    Num (-6#1) * Var 22 / (Site 0 * Site 0 * Site 0 * Site 0);
    Num (-6#1) * Var 22 / (Site 0 * Site 0 * Site 0 * Site 0)];
    [Num (-6#1) * Var 22 / (Site 0 * Site 0 * Site 0 * Site 0);
    Num (-6#1) * Var 22 / (Site 0 * Site 0 * Site 0 * Site 0);
    Num (-6#1) * Var 22 / (Site 0 * Site 0 * Site 0 * Site 0) + Num (2#1) / (Site 0 * Site 0 * Site 0);
    Num (-6#1) * Var 22 / (Site 0 * Site 0 * Site 0 * Site 0);
    Num (-6#1) * Var 22 / (Site 0 * Site 0 * Site 0 * Site 0)]];
    [[Num (-6#1) * Var 22 / (Site 0 * Site 0 * Site 0 * Site 0);
    Num (-6#1) * Var 22 / (Site 0 * Site 0 * Site 0 * Site 0);
    Num (-6#1) * Var 22 / (Site 0 * Site 0 * Site 0 * Site 0) + Num (2#1) / (Site 0 * Site 0 * Site 0);
    Num (-6#1) * Var 22 / (Site 0 * Site 0 * Site 0 * Site 0);
    Num (-6#1) * Var 22 / (Site 0 * Site 0 * Site 0 * Site 0)];
    [Num (-6#1) * Var 22 / (Site 0 * Site 0 * Site 0 * Site 0);
    Num (-6#1) * Var 22 / (Site 0 * Site 0 * Site 0 * Site 0);
    Num (-6#1) * Var 22 / (Site 0 * Site 0 * Site 0 * Site 0) + Num (2#1) / (Site 0 * Site 0 * Site 0);
    Num (-6#1) * Var 22 / (Site 0 * Site 0 * Site 0 * Site 0);
    Num (-6#1) * Var 22 / (Site 0 * Site 0 * Site 0 * Site 0)];
    [Num (-6#1) * Var 22 / (Site 0 * Site 0 * Site 0 * Site 0) + Num (2#1) / (Site 0 * Site 0 * Site 0);
    Num (-6#1) * Var 22 / (Site 0 * Site 0 * Site 0 * Site 0) + Num (2#1) / (Site 0 * Site 0 * Site 0);
    Num (-6#1) * Var 22 / (Site 0 * Site 0 * Site 0 * Site 0) + Num (2#1) / (Site 0 * Site 0 * Site 0) + Num (2#1) / (Site 0 * Site 0 * Site 0);
    Num (-6#1) * Var 22 / (Site 0 * Site 0 * Site 0 * Site 0) + Num (2#1) / (Site 0 * Site 0 * Site 0);
    Num (-6#1) * Var 22 / (Site 0 * Site 0 * Site 0 * Site 0) + Num (2#1) / (Site 0 * Site 0 * Site 0)];
    [Num (-6#1) * Var 22 / (Site 0 * Site 0 * Site 0 * Site 0);
    Num (-6#1) * Var 22 / (Site 0 * Site 0 * Site 0 * Site 0);
    Num (-6#1) * Var 22 / (Site 0 * Site 0 * Site 0 * Site 0) + Num (2#1) / (Site 0 * Site 0 * Site 0);
    Num (-6#1) * Var 22 / (Site 0 * Site 0 * Site 0 * Site 0);
    Num (-6#1) * Var 22 / (Site 0 * Site 0 * Site 0 * Site 0)];
    [Num (-6#1) * Var 22 / (Site 0 * Site 0 * Site 0 * Site 0);
    Num (-6#1) * Var 22 / (Site 0 * Site 0 * Site 0 * Site 0);
    Num (-6#1) * Var 22 / (Site 0 * Site 0 * Site 0 * Site 0) + Num (2#1) / (Site 0 * Site 0 * Site 0);
    Num (-6#1) * Var 22 / (Site 0 * Site 0 * Site 0 * Site 0);
    Num (-6#1) * Var 22 / (Site 0 * Site 0 * Site 0 * Site 0)]]]].
(** sources/spinel.c 2725-2957: conSpn, inpMask THIRD, output x[i] from r *)
Definition Spn_con_xr :=
  [Var 3;
    Num (1#1) - Var 2 - Var 3 - Var 4 - Var 5;
    Var 5;
    Var 2;
    Var 4].
(** sources/spinel.c 2725-2957: conSpn, inpMask THIRD, output dr[i][j] *)
Definition Spn_con_dr :=
  [[Num (0#1);
    Num (1#1);
    Num (0#1);
    Num (0#1)];
    [Num (-1#1);
    Num (-1#1);
    Num (-1#1);
    Num (-1#1)];
    [Num (0#1);
    Num (0#1);
    Num (0#1);
    Num (1#1)];
    [Num (1#1);
    Num (0#1);
    Num (0#1);
    Num (0#1)];
    [Num (0#1);
    Num (0#1);
    Num (1#1);
    Num (0#1)]].
(** sources/spinel.c 2725-2957: x[i] from r is set to zero when it is smaller in absolute value than this number *)
Definition Spn_con_snap : list (nat * Q) := [].
Definition conSpn : conv :=
  mkConv "spinel" 5 4 Spn_con_r Spn_con_x Spn_con_dm Spn_con_d2m Spn_con_d3m Spn_con_xr Spn_con_dr Spn_con_snap.

(** sources/fluidPhase.c 2271-2421: conFlu, inpMask SECOND, output r[i] from m *)
Definition Flu_con_r :=
  [Var 21 / Site 0].
(** sources/fluidPhase.c 2271-2421: conFlu, inpMask SECOND, output x[i] from m *)
Definition Flu_con_x :=
  [Var 20 / Site 0;
    Var 21 / Site 0].
(** sources/fluidPhase.c 2271-2421: conFlu, inpMask SECOND, output dm[i][j] *)
Definition Flu_con_dm :=
  [[(- Var 21) / (Site 0 * Site 0);
    (Num (1#1) - Var 21 / Site 0) / Site 0]].
(** sources/fluidPhase.c 2271-2421: conFlu, inpMask SECOND, output d2m[i][j][k] *)
Definition Flu_con_d2m :=
  [[[Num (2#1) * Var 21 / (Site 0 * Site 0 * Site 0);
    Num (2#1) * Var 21 / (Site 0 * Site 0 * Site 0) - Num (1#1) / (Site 0 * Site 0)];
    [Num (2#1) * Var 21 / (Site 0 * Site 0 * Site 0) - Num (1#1) / (Site 0 * Site 0);
    Num (2#1) * Var 21 / (Site 0 * Site 0 * Site 0) - Num (1#1) / (Site 0 * Site 0) - Num (1#1) / (Site 0 * Site 0)]]].
(** sources/fluidPhase.c 2271-2421: conFlu, inpMask SECOND, output d3m[i][j][k][l] *)
Definition Flu_con_d3m :=
  [[[[Num (-6#1) * Var 21 / (Site 0 * Site 0 * Site 0 * Site 0);
    Num (-6#1) * Var 21 / (Site 0 * Site 0 * Site 0 * Site 0) + Num (2#1) / (Site 0 * Site 0 * Site 0)];
    [Num (-6#1) * Var 21 / (Site 0 * Site 0 * Site 0 * Site 0) + Num (2#1) / (Site 0 * Site 0 * Site 0);
    Num (-6#1) * Var 21 / (Site 0 * Site 0 * Site 0 * Site 0) + Num (2#1) / (Site 0 * Site 0 * Site 0) + Num (2#1) / (Site 0 * Site 0 * Site 0)]];
    [[Num (-6#1) * Var 21 / (Site 0 * Site 0 * Site 0 * Site 0) + Num (2#1) / (Site 0 * Site 0 * Site 0);
    Num (-6#1) * Var 21 / (Site 0 * Site 0 * Site 0 * Site 0) + Num (2#1) / (Site 0 * Site 0 * Site 0) + Num (2#1) / (Site 0 * Site 0 * Site 0)];
    [Num (-6#1) * Var 21 / (Site 0 * Site 0 * Site 0 * Site 0) + Num (2#1) / (Site 0 * Site 0 * Site 0) + Num (2#1) / (Site 0 * Site 0 * Site 0);
    Num (-6#1) * Var 21 / (Site 0 * Site 0 * Site 0 * Site 0) + Num (2#1) / (Site 0 * Site 0 * Site 0) + Num (2#1) / (Site 0 * Site 0 * Site 0) + Num (2#1) / (Site 0 * Site 0 * Site 0)]]]].
(** sources/fluidPhase.c 2271-2421: conFlu, inpMask THIRD, output x[i] from r *)
Definition Flu_con_xr :=
  [Num (1#1) - Var 2;
    Var 2].
(** sources/fluidPhase.c 2271-2421: conFlu, inpMask THIRD, output dr[i][j] *)
Definition Flu_con_dr :=
  [[Num (-1#1)];
    [Num (1#1)]].
(** sources/fluidPhase.c 2271-2421: x[i] from r is set to zero when it is smaller in absolute value than this number *)
Definition Flu_con_snap : list (nat * Q) := [].
Definition conFlu : conv :=
  mkConv "fluidPhase" 2 1 Flu_con_r Flu_con_x Flu_con_dm Flu_con_d2m Flu_con_d3m Flu_con_xr Flu_con_dr Flu_con_snap.

Definition convs : list conv := [conFld; conGrn; conBio; conHrn; conLeu; conMaj; conOsx; conPvk; conRgw; conWds; conWus; conIlm; conAlL; conAlS; conKal; conAph; conTaj; conCpx; conCum; conMel; conNph; conOlv; conOox; conOpx; conRhm; conMsg; conSpn; conFlu].
