(** GENERATED by tools/gen_soln.py from /repo/sources: do not edit. The public functions of the solution phases that
    have no ordering parameters, as expressions: loops over components are unrolled, macros expanded, exact rationals for literals. *)
From Coq Require Import QArith NArith List String.
From Verif Require Import Sym SolnModel ConData.
Import List ListNotations.
Local Open Scope N_scope.
Local Open Scope Q_scope.
Local Open Scope string_scope.
Local Open Scope sym_scope.
Arguments Num _%Q. Arguments Var _%N. Arguments Site _%N. Arguments Log _%N.

(** sources/feldspar.c 622-676: gmixFld, output *gmix *)
Definition Fld_g0 :=
  Num (7924#1) * Site 0 * Site 1 * (Site 1 + Site 2 / Num (2#1)) + Num (18810#1) * Site 0 * Site 2 * (Site 2 + Site 1 / Num (2#1)) + Num (27320#1) * Site 0 * Site 2 * (Site 0 + Site 1 / Num (2#1)) + Num (38974#1) * Site 1 * Site 2 * (Site 2 + Site 0 / Num (2#1)) + Num (40317#1) * Site 1 * Site 2 * (Site 1 + Site 0 / Num (2#1)) + Num (12545#1) * Site 0 * Site 1 * Site 2 - Var 0 * (Num (-83143#10000) * (Site 0 * Log 0 + Site 1 * Log 1 + Site 2 * Log 2) + Num (103#10) * Site 0 * Site 2 * (Site 2 + Site 1 / Num (2#1)) + Num (103#10) * Site 0 * Site 2 * (Site 0 + Site 1 / Num (2#1))) + (Var 1 - Num (1#1)) * (Num (2301#5000) * Site 0 * Site 2 * (Site 2 + Site 1 / Num (2#1)) + Num (204#625) * Site 0 * Site 2 * (Site 0 + Site 1 / Num (2#1)) + Num (-1037#10000) * Site 1 * Site 2 * (Site 2 + Site 0 / Num (2#1)) + Num (-219#200) * Site 0 * Site 1 * Site 2).
(** sources/feldspar.c 622-676: gmixFld, output dx[i] *)
Definition Fld_g1 :=
  [Num (83143#10000) * Var 0 * (Log 0 - Log 2) + Num (7924#1) * (Site 1 * (Site 1 + Site 2 / Num (2#1)) - Num (1#2) * Site 0 * Site 1) + (Num (18810#1) - Var 0 * Num (103#10) + (Var 1 - Num (1#1)) * Num (2301#5000)) * ((Site 2 - Site 0) * (Site 2 + Site 1 / Num (2#1)) - Site 0 * Site 2) + (Num (27320#1) - Var 0 * Num (103#10) + (Var 1 - Num (1#1)) * Num (204#625)) * ((Site 2 - Site 0) * (Site 0 + Site 1 / Num (2#1)) + Site 0 * Site 2) + (Num (38974#1) + (Var 1 - Num (1#1)) * Num (-1037#10000)) * ((- Site 1) * (Site 2 + Site 0 / Num (2#1)) - Num (1#2) * Site 1 * Site 2) + Num (40317#1) * ((- Site 1) * (Site 1 + Site 0 / Num (2#1)) + Num (1#2) * Site 1 * Site 2) + (Num (12545#1) + (Var 1 - Num (1#1)) * Num (-219#200)) * Site 1 * (Site 2 - Site 0);
    Num (83143#10000) * Var 0 * (Log 1 - Log 2) + Num (7924#1) * (Site 0 * (Site 1 + Site 2 / Num (2#1)) + Num (1#2) * Site 0 * Site 1) + (Num (18810#1) - Var 0 * Num (103#10) + (Var 1 - Num (1#1)) * Num (2301#5000)) * ((- Site 0) * (Site 2 + Site 1 / Num (2#1)) - Num (1#2) * Site 0 * Site 2) + (Num (27320#1) - Var 0 * Num (103#10) + (Var 1 - Num (1#1)) * Num (204#625)) * ((- Site 0) * (Site 0 + Site 1 / Num (2#1)) + Num (1#2) * Site 0 * Site 2) + (Num (38974#1) + (Var 1 - Num (1#1)) * Num (-1037#10000)) * ((Site 2 - Site 1) * (Site 2 + Site 0 / Num (2#1)) - Site 1 * Site 2) + Num (40317#1) * ((Site 2 - Site 1) * (Site 1 + Site 0 / Num (2#1)) + Site 1 * Site 2) + (Num (12545#1) + (Var 1 - Num (1#1)) * Num (-219#200)) * Site 0 * (Site 2 - Site 1)].
(** sources/feldspar.c 622-676: gmixFld, output dx2[i][j] *)
Definition Fld_g2 :=
  [[Num (83143#10000) * Var 0 * (Num (1#1) / Site 0 + Num (1#1) / Site 2) + Num (-7924#1) * Site 1 - Num (2#1) * (Num (18810#1) - Var 0 * Num (103#10) + (Var 1 - Num (1#1)) * Num (2301#5000)) * (Site 2 + Site 1 / Num (2#1) + (Site 2 - Site 0)) - Num (2#1) * (Num (27320#1) - Var 0 * Num (103#10) + (Var 1 - Num (1#1)) * Num (204#625)) * (Site 0 + Site 1 / Num (2#1) - (Site 2 - Site 0)) + (Num (38974#1) + (Var 1 - Num (1#1)) * Num (-1037#10000) - Num (40317#1)) * Site 1 + Num (-2#1) * (Num (12545#1) + (Var 1 - Num (1#1)) * Num (-219#200)) * Site 1;
    Num (83143#10000) * Var 0 / Site 2 + Num (7924#1) * (Site 1 + Site 2 / Num (2#1) + Num (1#2) * Site 1 - Num (1#2) * Site 0) + Num (1#2) * (Num (18810#1) - Var 0 * Num (103#10) + (Var 1 - Num (1#1)) * Num (2301#5000)) * (Num (3#1) * Site 0 - Site 1 - Num (3#1) * Site 2) + Num (1#2) * (Num (27320#1) - Var 0 * Num (103#10) + (Var 1 - Num (1#1)) * Num (204#625)) * (Site 2 - Num (5#1) * Site 0 - Site 1) + Num (1#2) * (Num (38974#1) + (Var 1 - Num (1#1)) * Num (-1037#10000)) * (Num (3#1) * Site 1 - Num (3#1) * Site 2 - Site 0) + Num (40317#2) * (Site 2 - Num (5#1) * Site 1 - Site 0) + (Num (12545#1) + (Var 1 - Num (1#1)) * Num (-219#200)) * (Site 2 - Site 0 - Site 1)];
    [Num (83143#10000) * Var 0 / Site 2 + Num (7924#1) * (Site 1 + Site 2 / Num (2#1) + Num (1#2) * Site 1 - Num (1#2) * Site 0) + Num (1#2) * (Num (18810#1) - Var 0 * Num (103#10) + (Var 1 - Num (1#1)) * Num (2301#5000)) * (Num (3#1) * Site 0 - Site 1 - Num (3#1) * Site 2) + Num (1#2) * (Num (27320#1) - Var 0 * Num (103#10) + (Var 1 - Num (1#1)) * Num (204#625)) * (Site 2 - Num (5#1) * Site 0 - Site 1) + Num (1#2) * (Num (38974#1) + (Var 1 - Num (1#1)) * Num (-1037#10000)) * (Num (3#1) * Site 1 - Num (3#1) * Site 2 - Site 0) + Num (40317#2) * (Site 2 - Num (5#1) * Site 1 - Site 0) + (Num (12545#1) + (Var 1 - Num (1#1)) * Num (-219#200)) * (Site 2 - Site 0 - Site 1);
    Num (83143#10000) * Var 0 * (Num (1#1) / Site 1 + Num (1#1) / Site 2) + Site 0 * Num (7924#1) + (Num (18810#1) - Var 0 * Num (103#10) + (Var 1 - Num (1#1)) * Num (2301#5000)) * Site 0 - (Num (27320#1) - Var 0 * Num (103#10) + (Var 1 - Num (1#1)) * Num (204#625)) * Site 0 + (Num (38974#1) + (Var 1 - Num (1#1)) * Num (-1037#10000)) * (Num (2#1) * Site 1 - Num (4#1) * Site 2 - Site 0) + Num (40317#1) * (Num (2#1) * Site 2 - Num (4#1) * Site 1 - Site 0) - Num (2#1) * (Num (12545#1) + (Var 1 - Num (1#1)) * Num (-219#200)) * Site 0]].
(** sources/feldspar.c 622-676: gmixFld, output dx3[i][j][k] *)
Definition Fld_g3 :=
  [[[Num (83143#10000) * Var 0 * (Num (1#1) / (Site 2 * Site 2) - Num (1#1) / (Site 0 * Site 0)) + Num (6#1) * (Num (18810#1) - Var 0 * Num (103#10) + (Var 1 - Num (1#1)) * Num (2301#5000)) - Num (6#1) * (Num (27320#1) - Var 0 * Num (103#10) + (Var 1 - Num (1#1)) * Num (204#625));
    Num (83143#10000) * Var 0 * (Num (1#1) / (Site 2 * Site 2)) + Num (-7924#1) + Num (3#1) * (Num (18810#1) - Var 0 * Num (103#10) + (Var 1 - Num (1#1)) * Num (2301#5000)) - Num (3#1) * (Num (27320#1) - Var 0 * Num (103#10) + (Var 1 - Num (1#1)) * Num (204#625)) + (Num (38974#1) + (Var 1 - Num (1#1)) * Num (-1037#10000) - Num (40317#1)) - Num (2#1) * (Num (12545#1) + (Var 1 - Num (1#1)) * Num (-219#200))];
    [Num (83143#10000) * Var 0 * (Num (1#1) / (Site 2 * Site 2)) + Num (-7924#1) + Num (3#1) * (Num (18810#1) - Var 0 * Num (103#10) + (Var 1 - Num (1#1)) * Num (2301#5000)) - Num (3#1) * (Num (27320#1) - Var 0 * Num (103#10) + (Var 1 - Num (1#1)) * Num (204#625)) + (Num (38974#1) + (Var 1 - Num (1#1)) * Num (-1037#10000) - Num (40317#1)) - Num (2#1) * (Num (12545#1) + (Var 1 - Num (1#1)) * Num (-219#200));
    Num (83143#10000) * Var 0 * (Num (1#1) / (Site 2 * Site 2)) + Num (7924#1) + (Num (18810#1) - Var 0 * Num (103#10) + (Var 1 - Num (1#1)) * Num (2301#5000)) - (Num (27320#1) - Var 0 * Num (103#10) + (Var 1 - Num (1#1)) * Num (204#625)) + Num (3#1) * (Num (38974#1) + (Var 1 - Num (1#1)) * Num (-1037#10000)) - Num (120951#1) - Num (2#1) * (Num (12545#1) + (Var 1 - Num (1#1)) * Num (-219#200))]];
    [[Num (83143#10000) * Var 0 * (Num (1#1) / (Site 2 * Site 2)) + Num (-7924#1) + Num (3#1) * (Num (18810#1) - Var 0 * Num (103#10) + (Var 1 - Num (1#1)) * Num (2301#5000)) - Num (3#1) * (Num (27320#1) - Var 0 * Num (103#10) + (Var 1 - Num (1#1)) * Num (204#625)) + (Num (38974#1) + (Var 1 - Num (1#1)) * Num (-1037#10000) - Num (40317#1)) - Num (2#1) * (Num (12545#1) + (Var 1 - Num (1#1)) * Num (-219#200));
    Num (83143#10000) * Var 0 * (Num (1#1) / (Site 2 * Site 2)) + Num (7924#1) + (Num (18810#1) - Var 0 * Num (103#10) + (Var 1 - Num (1#1)) * Num (2301#5000)) - (Num (27320#1) - Var 0 * Num (103#10) + (Var 1 - Num (1#1)) * Num (204#625)) + Num (3#1) * (Num (38974#1) + (Var 1 - Num (1#1)) * Num (-1037#10000)) - Num (120951#1) - Num (2#1) * (Num (12545#1) + (Var 1 - Num (1#1)) * Num (-219#200))];
    [Num (83143#10000) * Var 0 * (Num (1#1) / (Site 2 * Site 2)) + Num (7924#1) + (Num (18810#1) - Var 0 * Num (103#10) + (Var 1 - Num (1#1)) * Num (2301#5000)) - (Num (27320#1) - Var 0 * Num (103#10) + (Var 1 - Num (1#1)) * Num (204#625)) + Num (3#1) * (Num (38974#1) + (Var 1 - Num (1#1)) * Num (-1037#10000)) - Num (120951#1) - Num (2#1) * (Num (12545#1) + (Var 1 - Num (1#1)) * Num (-219#200));
    Num (83143#10000) * Var 0 * (Num (1#1) / (Site 2 * Site 2) - Num (1#1) / (Site 1 * Site 1)) + Num (6#1) * (Num (38974#1) + (Var 1 - Num (1#1)) * Num (-1037#10000)) - Num (241902#1)]]].
(** sources/feldspar.c 679-688: hmixFld, output *hmix *)
Definition Fld_h0 :=
  Num (7924#1) * Site 0 * Site 1 * (Site 1 + Site 2 / Num (2#1)) + Num (18810#1) * Site 0 * Site 2 * (Site 2 + Site 1 / Num (2#1)) + Num (27320#1) * Site 0 * Site 2 * (Site 0 + Site 1 / Num (2#1)) + Num (38974#1) * Site 1 * Site 2 * (Site 2 + Site 0 / Num (2#1)) + Num (40317#1) * Site 1 * Site 2 * (Site 1 + Site 0 / Num (2#1)) + Num (12545#1) * Site 0 * Site 1 * Site 2 - Var 0 * (Num (-83143#10000) * (Site 0 * Log 0 + Site 1 * Log 1 + Site 2 * Log 2) + Num (103#10) * Site 0 * Site 2 * (Site 2 + Site 1 / Num (2#1)) + Num (103#10) * Site 0 * Site 2 * (Site 0 + Site 1 / Num (2#1))) + (Var 1 - Num (1#1)) * (Num (2301#5000) * Site 0 * Site 2 * (Site 2 + Site 1 / Num (2#1)) + Num (204#625) * Site 0 * Site 2 * (Site 0 + Site 1 / Num (2#1)) + Num (-1037#10000) * Site 1 * Site 2 * (Site 2 + Site 0 / Num (2#1)) + Num (-219#200) * Site 0 * Site 1 * Site 2) + Var 0 * (Num (-83143#10000) * (Site 0 * Log 0 + Site 1 * Log 1 + Site 2 * Log 2) + Num (103#10) * Site 0 * Site 2 * (Site 2 + Site 1 / Num (2#1)) + Num (103#10) * Site 0 * Site 2 * (Site 0 + Site 1 / Num (2#1))).
(** sources/feldspar.c 691-729: smixFld, output *smix *)
Definition Fld_s0 :=
  Num (-83143#10000) * (Site 0 * Log 0 + Site 1 * Log 1 + Site 2 * Log 2) + Num (103#10) * Site 0 * Site 2 * (Site 2 + Site 1 / Num (2#1)) + Num (103#10) * Site 0 * Site 2 * (Site 0 + Site 1 / Num (2#1)).
(** sources/feldspar.c 691-729: smixFld, output dx[i] *)
Definition Fld_s1 :=
  [(- (Num (83143#10000) * (Log 0 - Log 2) - Num (103#10) * ((Site 2 - Site 0) * (Site 2 + Site 1 / Num (2#1)) - Site 0 * Site 2) - Num (103#10) * ((Site 2 - Site 0) * (Site 0 + Site 1 / Num (2#1)) + Site 0 * Site 2)));
    (- (Num (83143#10000) * (Log 1 - Log 2) - Num (103#10) * ((- Site 0) * (Site 2 + Site 1 / Num (2#1)) - Num (1#2) * Site 0 * Site 2) - Num (103#10) * ((- Site 0) * (Site 0 + Site 1 / Num (2#1)) + Num (1#2) * Site 0 * Site 2)))].
(** sources/feldspar.c 691-729: smixFld, output dx2[i][j] *)
Definition Fld_s2 :=
  [[(- (Num (83143#10000) * (Num (1#1) / Site 0 + Num (1#1) / Site 2) + Num (103#5) * (Site 2 + Site 1 / Num (2#1) + (Site 2 - Site 0)) + Num (103#5) * (Site 0 + Site 1 / Num (2#1) - (Site 2 - Site 0))));
    (- (Num (83143#10000) / Site 2 - Num (103#20) * (Num (3#1) * Site 0 - Site 1 - Num (3#1) * Site 2) - Num (103#20) * (Site 2 - Num (5#1) * Site 0 - Site 1)))];
    [(- (Num (83143#10000) / Site 2 - Num (103#20) * (Num (3#1) * Site 0 - Site 1 - Num (3#1) * Site 2) - Num (103#20) * (Site 2 - Num (5#1) * Site 0 - Site 1)));
    (- (Num (83143#10000) * (Num (1#1) / Site 1 + Num (1#1) / Site 2)))]].
(** sources/feldspar.c 732-760: cpmixFld, output *cpmix *)
Definition Fld_c0 :=
  Num (0#1).
(** sources/feldspar.c 732-760: cpmixFld, output *dt *)
Definition Fld_ct :=
  Num (0#1).
(** sources/feldspar.c 732-760: cpmixFld, output dx[i] *)
Definition Fld_c1 :=
  [Num (0#1);
    Num (0#1)].
(** sources/feldspar.c 763-848: vmixFld, output *vmix *)
Definition Fld_v0 :=
  Num (2301#5000) * Site 0 * Site 2 * (Site 2 + Site 1 / Num (2#1)) + Num (204#625) * Site 0 * Site 2 * (Site 0 + Site 1 / Num (2#1)) + Num (-1037#10000) * Site 1 * Site 2 * (Site 2 + Site 0 / Num (2#1)) + Num (-219#200) * Site 0 * Site 1 * Site 2.
(** sources/feldspar.c 763-848: vmixFld, output dx[i] *)
Definition Fld_v1 :=
  [Num (2301#5000) * ((Site 2 - Site 0) * (Site 2 + Site 1 / Num (2#1)) - Site 0 * Site 2) + Num (204#625) * ((Site 2 - Site 0) * (Site 0 + Site 1 / Num (2#1)) + Site 0 * Site 2) + Num (-1037#10000) * ((- Site 1) * (Site 2 + Site 0 / Num (2#1)) - Num (1#2) * Site 1 * Site 2) + Num (-219#200) * Site 1 * (Site 2 - Site 0);
    Num (2301#5000) * ((- Site 0) * (Site 2 + Site 1 / Num (2#1)) - Num (1#2) * Site 0 * Site 2) + Num (204#625) * ((- Site 0) * (Site 0 + Site 1 / Num (2#1)) + Num (1#2) * Site 0 * Site 2) + Num (-1037#10000) * ((Site 2 - Site 1) * (Site 2 + Site 0 / Num (2#1)) - Site 1 * Site 2) + Num (-219#200) * Site 0 * (Site 2 - Site 1)].
(** sources/feldspar.c 763-848: vmixFld, output dx2[i][j] *)
Definition Fld_v2 :=
  [[Num (-2301#2500) * (Site 2 + Site 1 / Num (2#1) + (Site 2 - Site 0)) - Num (408#625) * (Site 0 + Site 1 / Num (2#1) - (Site 2 - Site 0)) + Num (-1037#10000) * Site 1 - Num (-219#100) * Site 1;
    Num (2301#10000) * (Num (3#1) * Site 0 - Site 1 - Num (3#1) * Site 2) + Num (102#625) * (Site 2 - Num (5#1) * Site 0 - Site 1) + Num (-1037#20000) * (Num (3#1) * Site 1 - Num (3#1) * Site 2 - Site 0) + Num (-219#200) * (Site 2 - Site 0 - Site 1)];
    [Num (2301#10000) * (Num (3#1) * Site 0 - Site 1 - Num (3#1) * Site 2) + Num (102#625) * (Site 2 - Num (5#1) * Site 0 - Site 1) + Num (-1037#20000) * (Num (3#1) * Site 1 - Num (3#1) * Site 2 - Site 0) + Num (-219#200) * (Site 2 - Site 0 - Site 1);
    Num (669#5000) * Site 0 + Num (-1037#10000) * (Num (2#1) * Site 1 - Num (4#1) * Site 2 - Site 0) - Num (-219#100) * Site 0]].
(** sources/feldspar.c 763-848: vmixFld, output *dt *)
Definition Fld_vt :=
  Num (0#1).
(** sources/feldspar.c 763-848: vmixFld, output *dp *)
Definition Fld_vp :=
  Num (0#1).
(** sources/feldspar.c 763-848: vmixFld, output *dt2 *)
Definition Fld_vtt :=
  Num (0#1).
(** sources/feldspar.c 763-848: vmixFld, output *dtdp *)
Definition Fld_vtp :=
  Num (0#1).
(** sources/feldspar.c 763-848: vmixFld, output *dp2 *)
Definition Fld_vpp :=
  Num (0#1).
(** sources/feldspar.c 763-848: vmixFld, output dxdt[i] *)
Definition Fld_v1t :=
  [Num (0#1);
    Num (0#1)].
(** sources/feldspar.c 763-848: vmixFld, output dxdp[i] *)
Definition Fld_v1p :=
  [Num (0#1);
    Num (0#1)].
(** sources/feldspar.c 528-619: actFld, output mu[i] *)
Definition Fld_mu :=
  [Num (7924#1) * Site 0 * Site 1 * (Site 1 + Site 2 / Num (2#1)) + Num (18810#1) * Site 0 * Site 2 * (Site 2 + Site 1 / Num (2#1)) + Num (27320#1) * Site 0 * Site 2 * (Site 0 + Site 1 / Num (2#1)) + Num (38974#1) * Site 1 * Site 2 * (Site 2 + Site 0 / Num (2#1)) + Num (40317#1) * Site 1 * Site 2 * (Site 1 + Site 0 / Num (2#1)) + Num (12545#1) * Site 0 * Site 1 * Site 2 - Var 0 * (Num (-83143#10000) * (Site 0 * Log 0 + Site 1 * Log 1 + Site 2 * Log 2) + Num (103#10) * Site 0 * Site 2 * (Site 2 + Site 1 / Num (2#1)) + Num (103#10) * Site 0 * Site 2 * (Site 0 + Site 1 / Num (2#1))) + (Var 1 - Num (1#1)) * (Num (2301#5000) * Site 0 * Site 2 * (Site 2 + Site 1 / Num (2#1)) + Num (204#625) * Site 0 * Site 2 * (Site 0 + Site 1 / Num (2#1)) + Num (-1037#10000) * Site 1 * Site 2 * (Site 2 + Site 0 / Num (2#1)) + Num (-219#200) * Site 0 * Site 1 * Site 2) + (Num (1#1) - Site 0) * (Num (83143#10000) * Var 0 * (Log 0 - Log 2) + Num (7924#1) * (Site 1 * (Site 1 + Site 2 / Num (2#1)) - Num (1#2) * Site 0 * Site 1) + (Num (18810#1) - Var 0 * Num (103#10) + (Var 1 - Num (1#1)) * Num (2301#5000)) * ((Site 2 - Site 0) * (Site 2 + Site 1 / Num (2#1)) - Site 0 * Site 2) + (Num (27320#1) - Var 0 * Num (103#10) + (Var 1 - Num (1#1)) * Num (204#625)) * ((Site 2 - Site 0) * (Site 0 + Site 1 / Num (2#1)) + Site 0 * Site 2) + (Num (38974#1) + (Var 1 - Num (1#1)) * Num (-1037#10000)) * ((- Site 1) * (Site 2 + Site 0 / Num (2#1)) - Num (1#2) * Site 1 * Site 2) + Num (40317#1) * ((- Site 1) * (Site 1 + Site 0 / Num (2#1)) + Num (1#2) * Site 1 * Site 2) + (Num (12545#1) + (Var 1 - Num (1#1)) * Num (-219#200)) * Site 1 * (Site 2 - Site 0)) + (- Site 1) * (Num (83143#10000) * Var 0 * (Log 1 - Log 2) + Num (7924#1) * (Site 0 * (Site 1 + Site 2 / Num (2#1)) + Num (1#2) * Site 0 * Site 1) + (Num (18810#1) - Var 0 * Num (103#10) + (Var 1 - Num (1#1)) * Num (2301#5000)) * ((- Site 0) * (Site 2 + Site 1 / Num (2#1)) - Num (1#2) * Site 0 * Site 2) + (Num (27320#1) - Var 0 * Num (103#10) + (Var 1 - Num (1#1)) * Num (204#625)) * ((- Site 0) * (Site 0 + Site 1 / Num (2#1)) + Num (1#2) * Site 0 * Site 2) + (Num (38974#1) + (Var 1 - Num (1#1)) * Num (-1037#10000)) * ((Site 2 - Site 1) * (Site 2 + Site 0 / Num (2#1)) - Site 1 * Site 2) + Num (40317#1) * ((Site 2 - Site 1) * (Site 1 + Site 0 / Num (2#1)) + Site 1 * Site 2) + (Num (12545#1) + (Var 1 - Num (1#1)) * Num (-219#200)) * Site 0 * (Site 2 - Site 1));
    Num (7924#1) * Site 0 * Site 1 * (Site 1 + Site 2 / Num (2#1)) + Num (18810#1) * Site 0 * Site 2 * (Site 2 + Site 1 / Num (2#1)) + Num (27320#1) * Site 0 * Site 2 * (Site 0 + Site 1 / Num (2#1)) + Num (38974#1) * Site 1 * Site 2 * (Site 2 + Site 0 / Num (2#1)) + Num (40317#1) * Site 1 * Site 2 * (Site 1 + Site 0 / Num (2#1)) + Num (12545#1) * Site 0 * Site 1 * Site 2 - Var 0 * (Num (-83143#10000) * (Site 0 * Log 0 + Site 1 * Log 1 + Site 2 * Log 2) + Num (103#10) * Site 0 * Site 2 * (Site 2 + Site 1 / Num (2#1)) + Num (103#10) * Site 0 * Site 2 * (Site 0 + Site 1 / Num (2#1))) + (Var 1 - Num (1#1)) * (Num (2301#5000) * Site 0 * Site 2 * (Site 2 + Site 1 / Num (2#1)) + Num (204#625) * Site 0 * Site 2 * (Site 0 + Site 1 / Num (2#1)) + Num (-1037#10000) * Site 1 * Site 2 * (Site 2 + Site 0 / Num (2#1)) + Num (-219#200) * Site 0 * Site 1 * Site 2) + (- Site 0) * (Num (83143#10000) * Var 0 * (Log 0 - Log 2) + Num (7924#1) * (Site 1 * (Site 1 + Site 2 / Num (2#1)) - Num (1#2) * Site 0 * Site 1) + (Num (18810#1) - Var 0 * Num (103#10) + (Var 1 - Num (1#1)) * Num (2301#5000)) * ((Site 2 - Site 0) * (Site 2 + Site 1 / Num (2#1)) - Site 0 * Site 2) + (Num (27320#1) - Var 0 * Num (103#10) + (Var 1 - Num (1#1)) * Num (204#625)) * ((Site 2 - Site 0) * (Site 0 + Site 1 / Num (2#1)) + Site 0 * Site 2) + (Num (38974#1) + (Var 1 - Num (1#1)) * Num (-1037#10000)) * ((- Site 1) * (Site 2 + Site 0 / Num (2#1)) - Num (1#2) * Site 1 * Site 2) + Num (40317#1) * ((- Site 1) * (Site 1 + Site 0 / Num (2#1)) + Num (1#2) * Site 1 * Site 2) + (Num (12545#1) + (Var 1 - Num (1#1)) * Num (-219#200)) * Site 1 * (Site 2 - Site 0)) + (Num (1#1) - Site 1) * (Num (83143#10000) * Var 0 * (Log 1 - Log 2) + Num (7924#1) * (Site 0 * (Site 1 + Site 2 / Num (2#1)) + Num (1#2) * Site 0 * Site 1) + (Num (18810#1) - Var 0 * Num (103#10) + (Var 1 - Num (1#1)) * Num (2301#5000)) * ((- Site 0) * (Site 2 + Site 1 / Num (2#1)) - Num (1#2) * Site 0 * Site 2) + (Num (27320#1) - Var 0 * Num (103#10) + (Var 1 - Num (1#1)) * Num (204#625)) * ((- Site 0) * (Site 0 + Site 1 / Num (2#1)) + Num (1#2) * Site 0 * Site 2) + (Num (38974#1) + (Var 1 - Num (1#1)) * Num (-1037#10000)) * ((Site 2 - Site 1) * (Site 2 + Site 0 / Num (2#1)) - Site 1 * Site 2) + Num (40317#1) * ((Site 2 - Site 1) * (Site 1 + Site 0 / Num (2#1)) + Site 1 * Site 2) + (Num (12545#1) + (Var 1 - Num (1#1)) * Num (-219#200)) * Site 0 * (Site 2 - Site 1));
    Num (7924#1) * Site 0 * Site 1 * (Site 1 + Site 2 / Num (2#1)) + Num (18810#1) * Site 0 * Site 2 * (Site 2 + Site 1 / Num (2#1)) + Num (27320#1) * Site 0 * Site 2 * (Site 0 + Site 1 / Num (2#1)) + Num (38974#1) * Site 1 * Site 2 * (Site 2 + Site 0 / Num (2#1)) + Num (40317#1) * Site 1 * Site 2 * (Site 1 + Site 0 / Num (2#1)) + Num (12545#1) * Site 0 * Site 1 * Site 2 - Var 0 * (Num (-83143#10000) * (Site 0 * Log 0 + Site 1 * Log 1 + Site 2 * Log 2) + Num (103#10) * Site 0 * Site 2 * (Site 2 + Site 1 / Num (2#1)) + Num (103#10) * Site 0 * Site 2 * (Site 0 + Site 1 / Num (2#1))) + (Var 1 - Num (1#1)) * (Num (2301#5000) * Site 0 * Site 2 * (Site 2 + Site 1 / Num (2#1)) + Num (204#625) * Site 0 * Site 2 * (Site 0 + Site 1 / Num (2#1)) + Num (-1037#10000) * Site 1 * Site 2 * (Site 2 + Site 0 / Num (2#1)) + Num (-219#200) * Site 0 * Site 1 * Site 2) + (- Site 0) * (Num (83143#10000) * Var 0 * (Log 0 - Log 2) + Num (7924#1) * (Site 1 * (Site 1 + Site 2 / Num (2#1)) - Num (1#2) * Site 0 * Site 1) + (Num (18810#1) - Var 0 * Num (103#10) + (Var 1 - Num (1#1)) * Num (2301#5000)) * ((Site 2 - Site 0) * (Site 2 + Site 1 / Num (2#1)) - Site 0 * Site 2) + (Num (27320#1) - Var 0 * Num (103#10) + (Var 1 - Num (1#1)) * Num (204#625)) * ((Site 2 - Site 0) * (Site 0 + Site 1 / Num (2#1)) + Site 0 * Site 2) + (Num (38974#1) + (Var 1 - Num (1#1)) * Num (-1037#10000)) * ((- Site 1) * (Site 2 + Site 0 / Num (2#1)) - Num (1#2) * Site 1 * Site 2) + Num (40317#1) * ((- Site 1) * (Site 1 + Site 0 / Num (2#1)) + Num (1#2) * Site 1 * Site 2) + (Num (12545#1) + (Var 1 - Num (1#1)) * Num (-219#200)) * Site 1 * (Site 2 - Site 0)) + (- Site 1) * (Num (83143#10000) * Var 0 * (Log 1 - Log 2) + Num (7924#1) * (Site 0 * (Site 1 + Site 2 / Num (2#1)) + Num (1#2) * Site 0 * Site 1) + (Num (18810#1) - Var 0 * Num (103#10) + (Var 1 - Num (1#1)) * Num (2301#5000)) * ((- Site 0) * (Site 2 + Site 1 / Num (2#1)) - Num (1#2) * Site 0 * Site 2) + (Num (27320#1) - Var 0 * Num (103#10) + (Var 1 - Num (1#1)) * Num (204#625)) * ((- Site 0) * (Site 0 + Site 1 / Num (2#1)) + Num (1#2) * Site 0 * Site 2) + (Num (38974#1) + (Var 1 - Num (1#1)) * Num (-1037#10000)) * ((Site 2 - Site 1) * (Site 2 + Site 0 / Num (2#1)) - Site 1 * Site 2) + Num (40317#1) * ((Site 2 - Site 1) * (Site 1 + Site 0 / Num (2#1)) + Site 1 * Site 2) + (Num (12545#1) + (Var 1 - Num (1#1)) * Num (-219#200)) * Site 0 * (Site 2 - Site 1))].
(** sources/feldspar.c 528-619: actFld, output a[i] is exp of *)
Definition Fld_aArg :=
  [(Num (7924#1) * Site 0 * Site 1 * (Site 1 + Site 2 / Num (2#1)) + Num (18810#1) * Site 0 * Site 2 * (Site 2 + Site 1 / Num (2#1)) + Num (27320#1) * Site 0 * Site 2 * (Site 0 + Site 1 / Num (2#1)) + Num (38974#1) * Site 1 * Site 2 * (Site 2 + Site 0 / Num (2#1)) + Num (40317#1) * Site 1 * Site 2 * (Site 1 + Site 0 / Num (2#1)) + Num (12545#1) * Site 0 * Site 1 * Site 2 - Var 0 * (Num (-83143#10000) * (Site 0 * Log 0 + Site 1 * Log 1 + Site 2 * Log 2) + Num (103#10) * Site 0 * Site 2 * (Site 2 + Site 1 / Num (2#1)) + Num (103#10) * Site 0 * Site 2 * (Site 0 + Site 1 / Num (2#1))) + (Var 1 - Num (1#1)) * (Num (2301#5000) * Site 0 * Site 2 * (Site 2 + Site 1 / Num (2#1)) + Num (204#625) * Site 0 * Site 2 * (Site 0 + Site 1 / Num (2#1)) + Num (-1037#10000) * Site 1 * Site 2 * (Site 2 + Site 0 / Num (2#1)) + Num (-219#200) * Site 0 * Site 1 * Site 2) + (Num (1#1) - Site 0) * (Num (83143#10000) * Var 0 * (Log 0 - Log 2) + Num (7924#1) * (Site 1 * (Site 1 + Site 2 / Num (2#1)) - Num (1#2) * Site 0 * Site 1) + (Num (18810#1) - Var 0 * Num (103#10) + (Var 1 - Num (1#1)) * Num (2301#5000)) * ((Site 2 - Site 0) * (Site 2 + Site 1 / Num (2#1)) - Site 0 * Site 2) + (Num (27320#1) - Var 0 * Num (103#10) + (Var 1 - Num (1#1)) * Num (204#625)) * ((Site 2 - Site 0) * (Site 0 + Site 1 / Num (2#1)) + Site 0 * Site 2) + (Num (38974#1) + (Var 1 - Num (1#1)) * Num (-1037#10000)) * ((- Site 1) * (Site 2 + Site 0 / Num (2#1)) - Num (1#2) * Site 1 * Site 2) + Num (40317#1) * ((- Site 1) * (Site 1 + Site 0 / Num (2#1)) + Num (1#2) * Site 1 * Site 2) + (Num (12545#1) + (Var 1 - Num (1#1)) * Num (-219#200)) * Site 1 * (Site 2 - Site 0)) + (- Site 1) * (Num (83143#10000) * Var 0 * (Log 1 - Log 2) + Num (7924#1) * (Site 0 * (Site 1 + Site 2 / Num (2#1)) + Num (1#2) * Site 0 * Site 1) + (Num (18810#1) - Var 0 * Num (103#10) + (Var 1 - Num (1#1)) * Num (2301#5000)) * ((- Site 0) * (Site 2 + Site 1 / Num (2#1)) - Num (1#2) * Site 0 * Site 2) + (Num (27320#1) - Var 0 * Num (103#10) + (Var 1 - Num (1#1)) * Num (204#625)) * ((- Site 0) * (Site 0 + Site 1 / Num (2#1)) + Num (1#2) * Site 0 * Site 2) + (Num (38974#1) + (Var 1 - Num (1#1)) * Num (-1037#10000)) * ((Site 2 - Site 1) * (Site 2 + Site 0 / Num (2#1)) - Site 1 * Site 2) + Num (40317#1) * ((Site 2 - Site 1) * (Site 1 + Site 0 / Num (2#1)) + Site 1 * Site 2) + (Num (12545#1) + (Var 1 - Num (1#1)) * Num (-219#200)) * Site 0 * (Site 2 - Site 1))) / (Num (83143#10000) * Var 0);
    (Num (7924#1) * Site 0 * Site 1 * (Site 1 + Site 2 / Num (2#1)) + Num (18810#1) * Site 0 * Site 2 * (Site 2 + Site 1 / Num (2#1)) + Num (27320#1) * Site 0 * Site 2 * (Site 0 + Site 1 / Num (2#1)) + Num (38974#1) * Site 1 * Site 2 * (Site 2 + Site 0 / Num (2#1)) + Num (40317#1) * Site 1 * Site 2 * (Site 1 + Site 0 / Num (2#1)) + Num (12545#1) * Site 0 * Site 1 * Site 2 - Var 0 * (Num (-83143#10000) * (Site 0 * Log 0 + Site 1 * Log 1 + Site 2 * Log 2) + Num (103#10) * Site 0 * Site 2 * (Site 2 + Site 1 / Num (2#1)) + Num (103#10) * Site 0 * Site 2 * (Site 0 + Site 1 / Num (2#1))) + (Var 1 - Num (1#1)) * (Num (2301#5000) * Site 0 * Site 2 * (Site 2 + Site 1 / Num (2#1)) + Num (204#625) * Site 0 * Site 2 * (Site 0 + Site 1 / Num (2#1)) + Num (-1037#10000) * Site 1 * Site 2 * (Site 2 + Site 0 / Num (2#1)) + Num (-219#200) * Site 0 * Site 1 * Site 2) + (- Site 0) * (Num (83143#10000) * Var 0 * (Log 0 - Log 2) + Num (7924#1) * (Site 1 * (Site 1 + Site 2 / Num (2#1)) - Num (1#2) * Site 0 * Site 1) + (Num (18810#1) - Var 0 * Num (103#10) + (Var 1 - Num (1#1)) * Num (2301#5000)) * ((Site 2 - Site 0) * (Site 2 + Site 1 / Num (2#1)) - Site 0 * Site 2) + (Num (27320#1) - Var 0 * Num (103#10) + (Var 1 - Num (1#1)) * Num (204#625)) * ((Site 2 - Site 0) * (Site 0 + Site 1 / Num (2#1)) + Site 0 * Site 2) + (Num (38974#1) + (Var 1 - Num (1#1)) * Num (-1037#10000)) * ((- Site 1) * (Site 2 + Site 0 / Num (2#1)) - Num (1#2) * Site 1 * Site 2) + Num (40317#1) * ((- Site 1) * (Site 1 + Site 0 / Num (2#1)) + Num (1#2) * Site 1 * Site 2) + (Num (12545#1) + (Var 1 - Num (1#1)) * Num (-219#200)) * Site 1 * (Site 2 - Site 0)) + (Num (1#1) - Site 1) * (Num (83143#10000) * Var 0 * (Log 1 - Log 2) + Num (7924#1) * (Site 0 * (Site 1 + Site 2 / Num (2#1)) + Num (1#2) * Site 0 * Site 1) + (Num (18810#1) - Var 0 * Num (103#10) + (Var 1 - Num (1#1)) * Num (2301#5000)) * ((- Site 0) * (Site 2 + Site 1 / Num (2#1)) - Num (1#2) * Site 0 * Site 2) + (Num (27320#1) - Var 0 * Num (103#10) + (Var 1 - Num (1#1)) * Num (204#625)) * ((- Site 0) * (Site 0 + Site 1 / Num (2#1)) + Num (1#2) * Site 0 * Site 2) + (Num (38974#1) + (Var 1 - Num (1#1)) * Num (-1037#10000)) * ((Site 2 - Site 1) * (Site 2 + Site 0 / Num (2#1)) - Site 1 * Site 2) + Num (40317#1) * ((Site 2 - Site 1) * (Site 1 + Site 0 / Num (2#1)) + Site 1 * Site 2) + (Num (12545#1) + (Var 1 - Num (1#1)) * Num (-219#200)) * Site 0 * (Site 2 - Site 1))) / (Num (83143#10000) * Var 0);
    (Num (7924#1) * Site 0 * Site 1 * (Site 1 + Site 2 / Num (2#1)) + Num (18810#1) * Site 0 * Site 2 * (Site 2 + Site 1 / Num (2#1)) + Num (27320#1) * Site 0 * Site 2 * (Site 0 + Site 1 / Num (2#1)) + Num (38974#1) * Site 1 * Site 2 * (Site 2 + Site 0 / Num (2#1)) + Num (40317#1) * Site 1 * Site 2 * (Site 1 + Site 0 / Num (2#1)) + Num (12545#1) * Site 0 * Site 1 * Site 2 - Var 0 * (Num (-83143#10000) * (Site 0 * Log 0 + Site 1 * Log 1 + Site 2 * Log 2) + Num (103#10) * Site 0 * Site 2 * (Site 2 + Site 1 / Num (2#1)) + Num (103#10) * Site 0 * Site 2 * (Site 0 + Site 1 / Num (2#1))) + (Var 1 - Num (1#1)) * (Num (2301#5000) * Site 0 * Site 2 * (Site 2 + Site 1 / Num (2#1)) + Num (204#625) * Site 0 * Site 2 * (Site 0 + Site 1 / Num (2#1)) + Num (-1037#10000) * Site 1 * Site 2 * (Site 2 + Site 0 / Num (2#1)) + Num (-219#200) * Site 0 * Site 1 * Site 2) + (- Site 0) * (Num (83143#10000) * Var 0 * (Log 0 - Log 2) + Num (7924#1) * (Site 1 * (Site 1 + Site 2 / Num (2#1)) - Num (1#2) * Site 0 * Site 1) + (Num (18810#1) - Var 0 * Num (103#10) + (Var 1 - Num (1#1)) * Num (2301#5000)) * ((Site 2 - Site 0) * (Site 2 + Site 1 / Num (2#1)) - Site 0 * Site 2) + (Num (27320#1) - Var 0 * Num (103#10) + (Var 1 - Num (1#1)) * Num (204#625)) * ((Site 2 - Site 0) * (Site 0 + Site 1 / Num (2#1)) + Site 0 * Site 2) + (Num (38974#1) + (Var 1 - Num (1#1)) * Num (-1037#10000)) * ((- Site 1) * (Site 2 + Site 0 / Num (2#1)) - Num (1#2) * Site 1 * Site 2) + Num (40317#1) * ((- Site 1) * (Site 1 + Site 0 / Num (2#1)) + Num (1#2) * Site 1 * Site 2) + (Num (12545#1) + (Var 1 - Num (1#1)) * Num (-219#200)) * Site 1 * (Site 2 - Site 0)) + (- Site 1) * (Num (83143#10000) * Var 0 * (Log 1 - Log 2) + Num (7924#1) * (Site 0 * (Site 1 + Site 2 / Num (2#1)) + Num (1#2) * Site 0 * Site 1) + (Num (18810#1) - Var 0 * Num (103#10) + (Var 1 - Num (1#1)) * Num (2301#5000)) * ((- Site 0) * (Site 2 + Site 1 / Num (2#1)) - Num (1#2) * Site 0 * Site 2) + (Num (27320#1) - Var 0 * Num (103#10) + (Var 1 - Num (1#1)) * Num (204#625)) * ((- Site 0) * (Site 0 + Site 1 / Num (2#1)) + Num (1#2) * Site 0 * Site 2) + (Num (38974#1) + (Var 1 - Num (1#1)) * Num (-1037#10000)) * ((Site 2 - Site 1) * (Site 2 + Site 0 / Num (2#1)) - Site 1 * Site 2) + Num (40317#1) * ((Site 2 - Site 1) * (Site 1 + Site 0 / Num (2#1)) + Site 1 * Site 2) + (Num (12545#1) + (Var 1 - Num (1#1)) * Num (-219#200)) * Site 0 * (Site 2 - Site 1))) / (Num (83143#10000) * Var 0)].
(** sources/feldspar.c 528-619: actFld, output dx[i][k] is a[i] times *)
Definition Fld_aDx :=
  [[((Num (1#1) - Site 0) * (Num (83143#10000) * Var 0 * (Num (1#1) / Site 0 + Num (1#1) / Site 2) + Num (-7924#1) * Site 1 - Num (2#1) * (Num (18810#1) - Var 0 * Num (103#10) + (Var 1 - Num (1#1)) * Num (2301#5000)) * (Site 2 + Site 1 / Num (2#1) + (Site 2 - Site 0)) - Num (2#1) * (Num (27320#1) - Var 0 * Num (103#10) + (Var 1 - Num (1#1)) * Num (204#625)) * (Site 0 + Site 1 / Num (2#1) - (Site 2 - Site 0)) + (Num (38974#1) + (Var 1 - Num (1#1)) * Num (-1037#10000) - Num (40317#1)) * Site 1 + Num (-2#1) * (Num (12545#1) + (Var 1 - Num (1#1)) * Num (-219#200)) * Site 1) + (- Site 1) * (Num (83143#10000) * Var 0 / Site 2 + Num (7924#1) * (Site 1 + Site 2 / Num (2#1) + Num (1#2) * Site 1 - Num (1#2) * Site 0) + Num (1#2) * (Num (18810#1) - Var 0 * Num (103#10) + (Var 1 - Num (1#1)) * Num (2301#5000)) * (Num (3#1) * Site 0 - Site 1 - Num (3#1) * Site 2) + Num (1#2) * (Num (27320#1) - Var 0 * Num (103#10) + (Var 1 - Num (1#1)) * Num (204#625)) * (Site 2 - Num (5#1) * Site 0 - Site 1) + Num (1#2) * (Num (38974#1) + (Var 1 - Num (1#1)) * Num (-1037#10000)) * (Num (3#1) * Site 1 - Num (3#1) * Site 2 - Site 0) + Num (40317#2) * (Site 2 - Num (5#1) * Site 1 - Site 0) + (Num (12545#1) + (Var 1 - Num (1#1)) * Num (-219#200)) * (Site 2 - Site 0 - Site 1))) / (Num (83143#10000) * Var 0);
    ((Num (1#1) - Site 0) * (Num (83143#10000) * Var 0 / Site 2 + Num (7924#1) * (Site 1 + Site 2 / Num (2#1) + Num (1#2) * Site 1 - Num (1#2) * Site 0) + Num (1#2) * (Num (18810#1) - Var 0 * Num (103#10) + (Var 1 - Num (1#1)) * Num (2301#5000)) * (Num (3#1) * Site 0 - Site 1 - Num (3#1) * Site 2) + Num (1#2) * (Num (27320#1) - Var 0 * Num (103#10) + (Var 1 - Num (1#1)) * Num (204#625)) * (Site 2 - Num (5#1) * Site 0 - Site 1) + Num (1#2) * (Num (38974#1) + (Var 1 - Num (1#1)) * Num (-1037#10000)) * (Num (3#1) * Site 1 - Num (3#1) * Site 2 - Site 0) + Num (40317#2) * (Site 2 - Num (5#1) * Site 1 - Site 0) + (Num (12545#1) + (Var 1 - Num (1#1)) * Num (-219#200)) * (Site 2 - Site 0 - Site 1)) + (- Site 1) * (Num (83143#10000) * Var 0 * (Num (1#1) / Site 1 + Num (1#1) / Site 2) + Site 0 * Num (7924#1) + (Num (18810#1) - Var 0 * Num (103#10) + (Var 1 - Num (1#1)) * Num (2301#5000)) * Site 0 - (Num (27320#1) - Var 0 * Num (103#10) + (Var 1 - Num (1#1)) * Num (204#625)) * Site 0 + (Num (38974#1) + (Var 1 - Num (1#1)) * Num (-1037#10000)) * (Num (2#1) * Site 1 - Num (4#1) * Site 2 - Site 0) + Num (40317#1) * (Num (2#1) * Site 2 - Num (4#1) * Site 1 - Site 0) - Num (2#1) * (Num (12545#1) + (Var 1 - Num (1#1)) * Num (-219#200)) * Site 0)) / (Num (83143#10000) * Var 0)];
    [((- Site 0) * (Num (83143#10000) * Var 0 * (Num (1#1) / Site 0 + Num (1#1) / Site 2) + Num (-7924#1) * Site 1 - Num (2#1) * (Num (18810#1) - Var 0 * Num (103#10) + (Var 1 - Num (1#1)) * Num (2301#5000)) * (Site 2 + Site 1 / Num (2#1) + (Site 2 - Site 0)) - Num (2#1) * (Num (27320#1) - Var 0 * Num (103#10) + (Var 1 - Num (1#1)) * Num (204#625)) * (Site 0 + Site 1 / Num (2#1) - (Site 2 - Site 0)) + (Num (38974#1) + (Var 1 - Num (1#1)) * Num (-1037#10000) - Num (40317#1)) * Site 1 + Num (-2#1) * (Num (12545#1) + (Var 1 - Num (1#1)) * Num (-219#200)) * Site 1) + (Num (1#1) - Site 1) * (Num (83143#10000) * Var 0 / Site 2 + Num (7924#1) * (Site 1 + Site 2 / Num (2#1) + Num (1#2) * Site 1 - Num (1#2) * Site 0) + Num (1#2) * (Num (18810#1) - Var 0 * Num (103#10) + (Var 1 - Num (1#1)) * Num (2301#5000)) * (Num (3#1) * Site 0 - Site 1 - Num (3#1) * Site 2) + Num (1#2) * (Num (27320#1) - Var 0 * Num (103#10) + (Var 1 - Num (1#1)) * Num (204#625)) * (Site 2 - Num (5#1) * Site 0 - Site 1) + Num (1#2) * (Num (38974#1) + (Var 1 - Num (1#1)) * Num (-1037#10000)) * (Num (3#1) * Site 1 - Num (3#1) * Site 2 - Site 0) + Num (40317#2) * (Site 2 - Num (5#1) * Site 1 - Site 0) + (Num (12545#1) + (Var 1 - Num (1#1)) * Num (-219#200)) * (Site 2 - Site 0 - Site 1))) / (Num (83143#10000) * Var 0);
    ((- Site 0) * (Num (83143#10000) * Var 0 / Site 2 + Num (7924#1) * (Site 1 + Site 2 / Num (2#1) + Num (1#2) * Site 1 - Num (1#2) * Site 0) + Num (1#2) * (Num (18810#1) - Var 0 * Num (103#10) + (Var 1 - Num (1#1)) * Num (2301#5000)) * (Num (3#1) * Site 0 - Site 1 - Num (3#1) * Site 2) + Num (1#2) * (Num (27320#1) - Var 0 * Num (103#10) + (Var 1 - Num (1#1)) * Num (204#625)) * (Site 2 - Num (5#1) * Site 0 - Site 1) + Num (1#2) * (Num (38974#1) + (Var 1 - Num (1#1)) * Num (-1037#10000)) * (Num (3#1) * Site 1 - Num (3#1) * Site 2 - Site 0) + Num (40317#2) * (Site 2 - Num (5#1) * Site 1 - Site 0) + (Num (12545#1) + (Var 1 - Num (1#1)) * Num (-219#200)) * (Site 2 - Site 0 - Site 1)) + (Num (1#1) - Site 1) * (Num (83143#10000) * Var 0 * (Num (1#1) / Site 1 + Num (1#1) / Site 2) + Site 0 * Num (7924#1) + (Num (18810#1) - Var 0 * Num (103#10) + (Var 1 - Num (1#1)) * Num (2301#5000)) * Site 0 - (Num (27320#1) - Var 0 * Num (103#10) + (Var 1 - Num (1#1)) * Num (204#625)) * Site 0 + (Num (38974#1) + (Var 1 - Num (1#1)) * Num (-1037#10000)) * (Num (2#1) * Site 1 - Num (4#1) * Site 2 - Site 0) + Num (40317#1) * (Num (2#1) * Site 2 - Num (4#1) * Site 1 - Site 0) - Num (2#1) * (Num (12545#1) + (Var 1 - Num (1#1)) * Num (-219#200)) * Site 0)) / (Num (83143#10000) * Var 0)];
    [((- Site 0) * (Num (83143#10000) * Var 0 * (Num (1#1) / Site 0 + Num (1#1) / Site 2) + Num (-7924#1) * Site 1 - Num (2#1) * (Num (18810#1) - Var 0 * Num (103#10) + (Var 1 - Num (1#1)) * Num (2301#5000)) * (Site 2 + Site 1 / Num (2#1) + (Site 2 - Site 0)) - Num (2#1) * (Num (27320#1) - Var 0 * Num (103#10) + (Var 1 - Num (1#1)) * Num (204#625)) * (Site 0 + Site 1 / Num (2#1) - (Site 2 - Site 0)) + (Num (38974#1) + (Var 1 - Num (1#1)) * Num (-1037#10000) - Num (40317#1)) * Site 1 + Num (-2#1) * (Num (12545#1) + (Var 1 - Num (1#1)) * Num (-219#200)) * Site 1) + (- Site 1) * (Num (83143#10000) * Var 0 / Site 2 + Num (7924#1) * (Site 1 + Site 2 / Num (2#1) + Num (1#2) * Site 1 - Num (1#2) * Site 0) + Num (1#2) * (Num (18810#1) - Var 0 * Num (103#10) + (Var 1 - Num (1#1)) * Num (2301#5000)) * (Num (3#1) * Site 0 - Site 1 - Num (3#1) * Site 2) + Num (1#2) * (Num (27320#1) - Var 0 * Num (103#10) + (Var 1 - Num (1#1)) * Num (204#625)) * (Site 2 - Num (5#1) * Site 0 - Site 1) + Num (1#2) * (Num (38974#1) + (Var 1 - Num (1#1)) * Num (-1037#10000)) * (Num (3#1) * Site 1 - Num (3#1) * Site 2 - Site 0) + Num (40317#2) * (Site 2 - Num (5#1) * Site 1 - Site 0) + (Num (12545#1) + (Var 1 - Num (1#1)) * Num (-219#200)) * (Site 2 - Site 0 - Site 1))) / (Num (83143#10000) * Var 0);
    ((- Site 0) * (Num (83143#10000) * Var 0 / Site 2 + Num (7924#1) * (Site 1 + Site 2 / Num (2#1) + Num (1#2) * Site 1 - Num (1#2) * Site 0) + Num (1#2) * (Num (18810#1) - Var 0 * Num (103#10) + (Var 1 - Num (1#1)) * Num (2301#5000)) * (Num (3#1) * Site 0 - Site 1 - Num (3#1) * Site 2) + Num (1#2) * (Num (27320#1) - Var 0 * Num (103#10) + (Var 1 - Num (1#1)) * Num (204#625)) * (Site 2 - Num (5#1) * Site 0 - Site 1) + Num (1#2) * (Num (38974#1) + (Var 1 - Num (1#1)) * Num (-1037#10000)) * (Num (3#1) * Site 1 - Num (3#1) * Site 2 - Site 0) + Num (40317#2) * (Site 2 - Num (5#1) * Site 1 - Site 0) + (Num (12545#1) + (Var 1 - Num (1#1)) * Num (-219#200)) * (Site 2 - Site 0 - Site 1)) + (- Site 1) * (Num (83143#10000) * Var 0 * (Num (1#1) / Site 1 + Num (1#1) / Site 2) + Site 0 * Num (7924#1) + (Num (18810#1) - Var 0 * Num (103#10) + (Var 1 - Num (1#1)) * Num (2301#5000)) * Site 0 - (Num (27320#1) - Var 0 * Num (103#10) + (Var 1 - Num (1#1)) * Num (204#625)) * Site 0 + (Num (38974#1) + (Var 1 - Num (1#1)) * Num (-1037#10000)) * (Num (2#1) * Site 1 - Num (4#1) * Site 2 - Site 0) + Num (40317#1) * (Num (2#1) * Site 2 - Num (4#1) * Site 1 - Site 0) - Num (2#1) * (Num (12545#1) + (Var 1 - Num (1#1)) * Num (-219#200)) * Site 0)) / (Num (83143#10000) * Var 0)]].
(** the site fractions of sources/feldspar.c (first lines of each function); clamped: (x > DBL_EPSILON) ? x : DBL_EPSILON;
    unclamped: an argument of log or a denominator that the code does not guard *)
Definition Fld_sites : list site :=
  [mkSite (Var 2) Low;
   mkSite (Var 3) Low;
   mkSite (Num (1#1) - Var 2 - Var 3) Low].
Definition Fld : phase :=
  mkPhase "feldspar" 3 2 conFld Fld_sites Fld_g0 Fld_g1 Fld_g2 Fld_g3 Fld_h0 Fld_s0 Fld_s1 Fld_s2 Fld_c0 Fld_ct Fld_c1
    Fld_v0 Fld_v1 Fld_v2 Fld_vt Fld_vp Fld_vtt Fld_vtp Fld_vpp Fld_v1t Fld_v1p Fld_mu Fld_aArg Fld_aDx.

(** sources/garnet.c 629-682: gmixGrn, output *gmix *)
Definition Grn_g0 :=
  Num (21560#1) * Site 1 * Site 2 * (Site 1 + Site 0 / Num (2#1)) + Num (69200#1) * Site 1 * Site 2 * (Site 2 + Site 0 / Num (2#1)) + Num (20320#1) * Site 1 * Site 0 * (Site 1 + Site 2 / Num (2#1)) + Num (2620#1) * Site 1 * Site 0 * (Site 0 + Site 2 / Num (2#1)) + Num (230#1) * Site 2 * Site 0 * (Site 2 + Site 1 / Num (2#1)) + Num (3720#1) * Site 2 * Site 0 * (Site 0 + Site 1 / Num (2#1)) - Var 0 * (Num (-249429#10000) * (Site 1 * Log 1 + Site 2 * Log 2 + Site 0 * Log 0) + Num (1879#100) * Site 1 * Site 2 * (Site 1 + Site 0 / Num (2#1)) + Num (1879#100) * Site 1 * Site 2 * (Site 2 + Site 0 / Num (2#1)) + Num (127#25) * Site 1 * Site 0 * (Site 1 + Site 2 / Num (2#1)) + Num (127#25) * Site 1 * Site 0 * (Site 0 + Site 2 / Num (2#1))) + Var 1 * (Num (1#10) * Site 1 * Site 2 * (Site 1 + Site 0 / Num (2#1)) + Num (1#10) * Site 1 * Site 2 * (Site 2 + Site 0 / Num (2#1)) + Num (17#100) * Site 1 * Site 0 * (Site 1 + Site 2 / Num (2#1)) + Num (9#100) * Site 1 * Site 0 * (Site 0 + Site 2 / Num (2#1)) + Num (1#100) * Site 2 * Site 0 * (Site 2 + Site 1 / Num (2#1)) + Num (3#50) * Site 2 * Site 0 * (Site 0 + Site 1 / Num (2#1))).
(** sources/garnet.c 629-682: gmixGrn, output dx[i] *)
Definition Grn_g1 :=
  [Num (249429#10000) * Var 0 * (Log 0 - Log 2) + (Num (21560#1) - Var 0 * Num (1879#100) + Var 1 * Num (1#10)) * (Site 1 * Site 2 / Num (2#1) - Site 1 * (Site 1 + Site 0 / Num (2#1))) + (Num (69200#1) - Var 0 * Num (1879#100) + Var 1 * Num (1#10)) * ((- Site 1) * Site 2 / Num (2#1) - Site 1 * (Site 2 + Site 0 / Num (2#1))) + (Num (20320#1) - Var 0 * Num (127#25) + Var 1 * Num (17#100)) * ((- Site 1) * Site 0 / Num (2#1) + Site 1 * (Site 1 + Site 2 / Num (2#1))) + (Num (2620#1) - Var 0 * Num (127#25) + Var 1 * Num (9#100)) * (Site 1 * Site 0 / Num (2#1) + Site 1 * (Site 0 + Site 2 / Num (2#1))) + (Num (230#1) + Var 1 * Num (1#100)) * ((- Site 2) * Site 0 + (Site 2 - Site 0) * (Site 2 + Site 1 / Num (2#1))) + (Num (3720#1) + Var 1 * Num (3#50)) * (Site 2 * Site 0 + (Site 2 - Site 0) * (Site 0 + Site 1 / Num (2#1)));
    Num (249429#10000) * Var 0 * (Log 1 - Log 2) + (Num (21560#1) - Var 0 * Num (1879#100) + Var 1 * Num (1#10)) * (Site 1 * Site 2 + (Site 2 - Site 1) * (Site 1 + Site 0 / Num (2#1))) + (Num (69200#1) - Var 0 * Num (1879#100) + Var 1 * Num (1#10)) * ((- Site 1) * Site 2 + (Site 2 - Site 1) * (Site 2 + Site 0 / Num (2#1))) + (Num (20320#1) - Var 0 * Num (127#25) + Var 1 * Num (17#100)) * (Site 1 * Site 0 / Num (2#1) + Site 0 * (Site 1 + Site 2 / Num (2#1))) + (Num (2620#1) - Var 0 * Num (127#25) + Var 1 * Num (9#100)) * ((- Site 1) * Site 0 / Num (2#1) + Site 0 * (Site 0 + Site 2 / Num (2#1))) + (Num (230#1) + Var 1 * Num (1#100)) * ((- Site 2) * Site 0 / Num (2#1) - Site 0 * (Site 2 + Site 1 / Num (2#1))) + (Num (3720#1) + Var 1 * Num (3#50)) * (Site 2 * Site 0 / Num (2#1) - Site 0 * (Site 0 + Site 1 / Num (2#1)))].
(** sources/garnet.c 629-682: gmixGrn, output dx2[i][j] *)
Definition Grn_g2 :=
  [[Num (249429#10000) * Var 0 * (Num (1#1) / Site 0 + Num (1#1) / Site 2) + Site 1 * (Num (69200#1) - Var 0 * Num (1879#100) + Var 1 * Num (1#10) - (Num (21560#1) - Var 0 * Num (1879#100) + Var 1 * Num (1#10)) + (Num (2620#1) - Var 0 * Num (127#25) + Var 1 * Num (9#100)) - (Num (20320#1) - Var 0 * Num (127#25) + Var 1 * Num (17#100))) + Num (2#1) * (Site 2 - Site 0) * (Num (3720#1) + Var 1 * Num (3#50) - (Num (230#1) + Var 1 * Num (1#100))) - Num (2#1) * (Num (230#1) + Var 1 * Num (1#100)) * (Site 2 + Site 1 / Num (2#1)) - Num (2#1) * (Num (3720#1) + Var 1 * Num (3#50)) * (Site 0 + Site 1 / Num (2#1));
    Num (249429#10000) * Var 0 * (Num (1#1) / Site 2) + (Num (21560#1) - Var 0 * Num (1879#100) + Var 1 * Num (1#10)) * ((Site 2 - Site 1) / Num (2#1) - (Site 1 + Site 0 / Num (2#1)) - Site 1) + (Num (69200#1) - Var 0 * Num (1879#100) + Var 1 * Num (1#10)) * ((- (Site 2 - Site 1)) / Num (2#1) - (Site 2 + Site 0 / Num (2#1)) + Site 1) + (Num (20320#1) - Var 0 * Num (127#25) + Var 1 * Num (17#100)) * ((- Site 0) / Num (2#1) + (Site 1 + Site 2 / Num (2#1)) + Site 1 / Num (2#1)) + (Num (2620#1) - Var 0 * Num (127#25) + Var 1 * Num (9#100)) * (Site 0 / Num (2#1) + (Site 0 + Site 2 / Num (2#1)) - Site 1 / Num (2#1)) + (Num (230#1) + Var 1 * Num (1#100)) * (Site 0 - (Site 2 + Site 1 / Num (2#1)) - (Site 2 - Site 0) / Num (2#1)) + (Num (3720#1) + Var 1 * Num (3#50)) * ((- Site 0) - (Site 0 + Site 1 / Num (2#1)) + (Site 2 - Site 0) / Num (2#1))];
    [Num (249429#10000) * Var 0 * (Num (1#1) / Site 2) + (Num (21560#1) - Var 0 * Num (1879#100) + Var 1 * Num (1#10)) * ((Site 2 - Site 1) / Num (2#1) - (Site 1 + Site 0 / Num (2#1)) - Site 1) + (Num (69200#1) - Var 0 * Num (1879#100) + Var 1 * Num (1#10)) * ((- (Site 2 - Site 1)) / Num (2#1) - (Site 2 + Site 0 / Num (2#1)) + Site 1) + (Num (20320#1) - Var 0 * Num (127#25) + Var 1 * Num (17#100)) * ((- Site 0) / Num (2#1) + (Site 1 + Site 2 / Num (2#1)) + Site 1 / Num (2#1)) + (Num (2620#1) - Var 0 * Num (127#25) + Var 1 * Num (9#100)) * (Site 0 / Num (2#1) + (Site 0 + Site 2 / Num (2#1)) - Site 1 / Num (2#1)) + (Num (230#1) + Var 1 * Num (1#100)) * (Site 0 - (Site 2 + Site 1 / Num (2#1)) - (Site 2 - Site 0) / Num (2#1)) + (Num (3720#1) + Var 1 * Num (3#50)) * ((- Site 0) - (Site 0 + Site 1 / Num (2#1)) + (Site 2 - Site 0) / Num (2#1));
    Num (249429#10000) * Var 0 * (Num (1#1) / Site 1 + Num (1#1) / Site 2) + Num (2#1) * (Site 2 - Site 1) * (Num (21560#1) - Var 0 * Num (1879#100) + Var 1 * Num (1#10) - (Num (69200#1) - Var 0 * Num (1879#100) + Var 1 * Num (1#10))) - Num (2#1) * (Num (21560#1) - Var 0 * Num (1879#100) + Var 1 * Num (1#10)) * (Site 1 + Site 0 / Num (2#1)) - Num (2#1) * (Num (69200#1) - Var 0 * Num (1879#100) + Var 1 * Num (1#10)) * (Site 2 + Site 0 / Num (2#1)) + Site 0 * (Num (20320#1) - Var 0 * Num (127#25) + Var 1 * Num (17#100) - (Num (2620#1) - Var 0 * Num (127#25) + Var 1 * Num (9#100)) + (Num (230#1) + Var 1 * Num (1#100)) - (Num (3720#1) + Var 1 * Num (3#50)))]].
(** sources/garnet.c 629-682: gmixGrn, output dx3[i][j][k] *)
Definition Grn_g3 :=
  [[[Num (249429#10000) * Var 0 * (Num (1#1) / (Site 2 * Site 2) - Num (1#1) / (Site 0 * Site 0)) + Num (6#1) * (Num (230#1) + Var 1 * Num (1#100)) - Num (6#1) * (Num (3720#1) + Var 1 * Num (3#50));
    Num (249429#10000) * Var 0 * (Num (1#1) / (Site 2 * Site 2)) + (Num (69200#1) - Var 0 * Num (1879#100) + Var 1 * Num (1#10)) - (Num (21560#1) - Var 0 * Num (1879#100) + Var 1 * Num (1#10)) + (Num (2620#1) - Var 0 * Num (127#25) + Var 1 * Num (9#100)) - (Num (20320#1) - Var 0 * Num (127#25) + Var 1 * Num (17#100)) - Num (3#1) * (Num (3720#1) + Var 1 * Num (3#50)) + Num (3#1) * (Num (230#1) + Var 1 * Num (1#100))];
    [Num (249429#10000) * Var 0 * (Num (1#1) / (Site 2 * Site 2)) + (Num (69200#1) - Var 0 * Num (1879#100) + Var 1 * Num (1#10)) - (Num (21560#1) - Var 0 * Num (1879#100) + Var 1 * Num (1#10)) + (Num (2620#1) - Var 0 * Num (127#25) + Var 1 * Num (9#100)) - (Num (20320#1) - Var 0 * Num (127#25) + Var 1 * Num (17#100)) - Num (3#1) * (Num (3720#1) + Var 1 * Num (3#50)) + Num (3#1) * (Num (230#1) + Var 1 * Num (1#100));
    Num (249429#10000) * Var 0 * (Num (1#1) / (Site 2 * Site 2)) + (Num (20320#1) - Var 0 * Num (127#25) + Var 1 * Num (17#100)) - (Num (2620#1) - Var 0 * Num (127#25) + Var 1 * Num (9#100)) + (Num (230#1) + Var 1 * Num (1#100)) - (Num (3720#1) + Var 1 * Num (3#50)) - Num (3#1) * (Num (21560#1) - Var 0 * Num (1879#100) + Var 1 * Num (1#10)) + Num (3#1) * (Num (69200#1) - Var 0 * Num (1879#100) + Var 1 * Num (1#10))]];
    [[Num (249429#10000) * Var 0 * (Num (1#1) / (Site 2 * Site 2)) + (Num (69200#1) - Var 0 * Num (1879#100) + Var 1 * Num (1#10)) - (Num (21560#1) - Var 0 * Num (1879#100) + Var 1 * Num (1#10)) + (Num (2620#1) - Var 0 * Num (127#25) + Var 1 * Num (9#100)) - (Num (20320#1) - Var 0 * Num (127#25) + Var 1 * Num (17#100)) - Num (3#1) * (Num (3720#1) + Var 1 * Num (3#50)) + Num (3#1) * (Num (230#1) + Var 1 * Num (1#100));
    Num (249429#10000) * Var 0 * (Num (1#1) / (Site 2 * Site 2)) + (Num (20320#1) - Var 0 * Num (127#25) + Var 1 * Num (17#100)) - (Num (2620#1) - Var 0 * Num (127#25) + Var 1 * Num (9#100)) + (Num (230#1) + Var 1 * Num (1#100)) - (Num (3720#1) + Var 1 * Num (3#50)) - Num (3#1) * (Num (21560#1) - Var 0 * Num (1879#100) + Var 1 * Num (1#10)) + Num (3#1) * (Num (69200#1) - Var 0 * Num (1879#100) + Var 1 * Num (1#10))];
    [Num (249429#10000) * Var 0 * (Num (1#1) / (Site 2 * Site 2)) + (Num (20320#1) - Var 0 * Num (127#25) + Var 1 * Num (17#100)) - (Num (2620#1) - Var 0 * Num (127#25) + Var 1 * Num (9#100)) + (Num (230#1) + Var 1 * Num (1#100)) - (Num (3720#1) + Var 1 * Num (3#50)) - Num (3#1) * (Num (21560#1) - Var 0 * Num (1879#100) + Var 1 * Num (1#10)) + Num (3#1) * (Num (69200#1) - Var 0 * Num (1879#100) + Var 1 * Num (1#10));
    Num (249429#10000) * Var 0 * (Num (1#1) / (Site 2 * Site 2) - Num (1#1) / (Site 1 * Site 1)) + Num (6#1) * (Num (69200#1) - Var 0 * Num (1879#100) + Var 1 * Num (1#10)) - Num (6#1) * (Num (21560#1) - Var 0 * Num (1879#100) + Var 1 * Num (1#10))]]].
(** sources/garnet.c 685-694: hmixGrn, output *hmix *)
Definition Grn_h0 :=
  Num (21560#1) * Site 1 * Site 2 * (Site 1 + Site 0 / Num (2#1)) + Num (69200#1) * Site 1 * Site 2 * (Site 2 + Site 0 / Num (2#1)) + Num (20320#1) * Site 1 * Site 0 * (Site 1 + Site 2 / Num (2#1)) + Num (2620#1) * Site 1 * Site 0 * (Site 0 + Site 2 / Num (2#1)) + Num (230#1) * Site 2 * Site 0 * (Site 2 + Site 1 / Num (2#1)) + Num (3720#1) * Site 2 * Site 0 * (Site 0 + Site 1 / Num (2#1)) - Var 0 * (Num (-249429#10000) * (Site 1 * Log 1 + Site 2 * Log 2 + Site 0 * Log 0) + Num (1879#100) * Site 1 * Site 2 * (Site 1 + Site 0 / Num (2#1)) + Num (1879#100) * Site 1 * Site 2 * (Site 2 + Site 0 / Num (2#1)) + Num (127#25) * Site 1 * Site 0 * (Site 1 + Site 2 / Num (2#1)) + Num (127#25) * Site 1 * Site 0 * (Site 0 + Site 2 / Num (2#1))) + Var 1 * (Num (1#10) * Site 1 * Site 2 * (Site 1 + Site 0 / Num (2#1)) + Num (1#10) * Site 1 * Site 2 * (Site 2 + Site 0 / Num (2#1)) + Num (17#100) * Site 1 * Site 0 * (Site 1 + Site 2 / Num (2#1)) + Num (9#100) * Site 1 * Site 0 * (Site 0 + Site 2 / Num (2#1)) + Num (1#100) * Site 2 * Site 0 * (Site 2 + Site 1 / Num (2#1)) + Num (3#50) * Site 2 * Site 0 * (Site 0 + Site 1 / Num (2#1))) + Var 0 * (Num (-249429#10000) * (Site 1 * Log 1 + Site 2 * Log 2 + Site 0 * Log 0) + Num (1879#100) * Site 1 * Site 2 * (Site 1 + Site 0 / Num (2#1)) + Num (1879#100) * Site 1 * Site 2 * (Site 2 + Site 0 / Num (2#1)) + Num (127#25) * Site 1 * Site 0 * (Site 1 + Site 2 / Num (2#1)) + Num (127#25) * Site 1 * Site 0 * (Site 0 + Site 2 / Num (2#1))).
(** sources/garnet.c 697-735: smixGrn, output *smix *)
Definition Grn_s0 :=
  Num (-249429#10000) * (Site 1 * Log 1 + Site 2 * Log 2 + Site 0 * Log 0) + Num (1879#100) * Site 1 * Site 2 * (Site 1 + Site 0 / Num (2#1)) + Num (1879#100) * Site 1 * Site 2 * (Site 2 + Site 0 / Num (2#1)) + Num (127#25) * Site 1 * Site 0 * (Site 1 + Site 2 / Num (2#1)) + Num (127#25) * Site 1 * Site 0 * (Site 0 + Site 2 / Num (2#1)).
(** sources/garnet.c 697-735: smixGrn, output dx[i] *)
Definition Grn_s1 :=
  [(- (Num (249429#10000) * (Log 0 - Log 2) - (Num (1879#100) * (Site 1 * Site 2 / Num (2#1) - Site 1 * (Site 1 + Site 0 / Num (2#1))) + Num (1879#100) * ((- Site 1) * Site 2 / Num (2#1) - Site 1 * (Site 2 + Site 0 / Num (2#1))) + Num (127#25) * ((- Site 1) * Site 0 / Num (2#1) + Site 1 * (Site 1 + Site 2 / Num (2#1))) + Num (127#25) * (Site 1 * Site 0 / Num (2#1) + Site 1 * (Site 0 + Site 2 / Num (2#1))))));
    (- (Num (249429#10000) * (Log 1 - Log 2) - (Num (1879#100) * (Site 1 * Site 2 + (Site 2 - Site 1) * (Site 1 + Site 0 / Num (2#1))) + Num (1879#100) * ((- Site 1) * Site 2 + (Site 2 - Site 1) * (Site 2 + Site 0 / Num (2#1))) + Num (127#25) * (Site 1 * Site 0 / Num (2#1) + Site 0 * (Site 1 + Site 2 / Num (2#1))) + Num (127#25) * ((- Site 1) * Site 0 / Num (2#1) + Site 0 * (Site 0 + Site 2 / Num (2#1))))))].
(** sources/garnet.c 697-735: smixGrn, output dx2[i][j] *)
Definition Grn_s2 :=
  [[(- (Num (249429#10000) * (Num (1#1) / Site 0 + Num (1#1) / Site 2)));
    (- (Num (249429#10000) * (Num (1#1) / Site 2) - (Num (1879#100) * ((Site 2 - Site 1) / Num (2#1) - (Site 1 + Site 0 / Num (2#1)) - Site 1) + Num (1879#100) * ((- (Site 2 - Site 1)) / Num (2#1) - (Site 2 + Site 0 / Num (2#1)) + Site 1) + Num (127#25) * ((- Site 0) / Num (2#1) + (Site 1 + Site 2 / Num (2#1)) + Site 1 / Num (2#1)) + Num (127#25) * (Site 0 / Num (2#1) + (Site 0 + Site 2 / Num (2#1)) - Site 1 / Num (2#1)))))];
    [(- (Num (249429#10000) * (Num (1#1) / Site 2) - (Num (1879#100) * ((Site 2 - Site 1) / Num (2#1) - (Site 1 + Site 0 / Num (2#1)) - Site 1) + Num (1879#100) * ((- (Site 2 - Site 1)) / Num (2#1) - (Site 2 + Site 0 / Num (2#1)) + Site 1) + Num (127#25) * ((- Site 0) / Num (2#1) + (Site 1 + Site 2 / Num (2#1)) + Site 1 / Num (2#1)) + Num (127#25) * (Site 0 / Num (2#1) + (Site 0 + Site 2 / Num (2#1)) - Site 1 / Num (2#1)))));
    (- (Num (249429#10000) * (Num (1#1) / Site 1 + Num (1#1) / Site 2) - ((- (Num (1879#50) * (Site 1 + Site 0 / Num (2#1)))) - Num (1879#50) * (Site 2 + Site 0 / Num (2#1)))))]].
(** sources/garnet.c 738-766: cpmixGrn, output *cpmix *)
Definition Grn_c0 :=
  Num (0#1).
(** sources/garnet.c 738-766: cpmixGrn, output *dt *)
Definition Grn_ct :=
  Num (0#1).
(** sources/garnet.c 738-766: cpmixGrn, output dx[i] *)
Definition Grn_c1 :=
  [Num (0#1);
    Num (0#1)].
(** sources/garnet.c 769-854: vmixGrn, output *vmix *)
Definition Grn_v0 :=
  Num (1#10) * Site 1 * Site 2 * (Site 1 + Site 0 / Num (2#1)) + Num (1#10) * Site 1 * Site 2 * (Site 2 + Site 0 / Num (2#1)) + Num (17#100) * Site 1 * Site 0 * (Site 1 + Site 2 / Num (2#1)) + Num (9#100) * Site 1 * Site 0 * (Site 0 + Site 2 / Num (2#1)) + Num (1#100) * Site 2 * Site 0 * (Site 2 + Site 1 / Num (2#1)) + Num (3#50) * Site 2 * Site 0 * (Site 0 + Site 1 / Num (2#1)).
(** sources/garnet.c 769-854: vmixGrn, output dx[i] *)
Definition Grn_v1 :=
  [Num (1#10) * (Site 1 * Site 2 / Num (2#1) - Site 1 * (Site 1 + Site 0 / Num (2#1))) + Num (1#10) * ((- Site 1) * Site 2 / Num (2#1) - Site 1 * (Site 2 + Site 0 / Num (2#1))) + Num (17#100) * ((- Site 1) * Site 0 / Num (2#1) + Site 1 * (Site 1 + Site 2 / Num (2#1))) + Num (9#100) * (Site 1 * Site 0 / Num (2#1) + Site 1 * (Site 0 + Site 2 / Num (2#1))) + Num (1#100) * ((- Site 2) * Site 0 + (Site 2 - Site 0) * (Site 2 + Site 1 / Num (2#1))) + Num (3#50) * (Site 2 * Site 0 + (Site 2 - Site 0) * (Site 0 + Site 1 / Num (2#1)));
    Num (1#10) * (Site 1 * Site 2 + (Site 2 - Site 1) * (Site 1 + Site 0 / Num (2#1))) + Num (1#10) * ((- Site 1) * Site 2 + (Site 2 - Site 1) * (Site 2 + Site 0 / Num (2#1))) + Num (17#100) * (Site 1 * Site 0 / Num (2#1) + Site 0 * (Site 1 + Site 2 / Num (2#1))) + Num (9#100) * ((- Site 1) * Site 0 / Num (2#1) + Site 0 * (Site 0 + Site 2 / Num (2#1))) + Num (1#100) * ((- Site 2) * Site 0 / Num (2#1) - Site 0 * (Site 2 + Site 1 / Num (2#1))) + Num (3#50) * (Site 2 * Site 0 / Num (2#1) - Site 0 * (Site 0 + Site 1 / Num (2#1)))].
(** sources/garnet.c 769-854: vmixGrn, output dx2[i][j] *)
Definition Grn_v2 :=
  [[Site 1 * Num (-2#25) + Num (2#1) * (Site 2 - Site 0) * Num (1#20) - Num (1#50) * (Site 2 + Site 1 / Num (2#1)) - Num (3#25) * (Site 0 + Site 1 / Num (2#1));
    Num (1#10) * ((Site 2 - Site 1) / Num (2#1) - (Site 1 + Site 0 / Num (2#1)) - Site 1) + Num (1#10) * ((- (Site 2 - Site 1)) / Num (2#1) - (Site 2 + Site 0 / Num (2#1)) + Site 1) + Num (17#100) * ((- Site 0) / Num (2#1) + (Site 1 + Site 2 / Num (2#1)) + Site 1 / Num (2#1)) + Num (9#100) * (Site 0 / Num (2#1) + (Site 0 + Site 2 / Num (2#1)) - Site 1 / Num (2#1)) + Num (1#100) * (Site 0 - (Site 2 + Site 1 / Num (2#1)) - (Site 2 - Site 0) / Num (2#1)) + Num (3#50) * ((- Site 0) - (Site 0 + Site 1 / Num (2#1)) + (Site 2 - Site 0) / Num (2#1))];
    [Num (1#10) * ((Site 2 - Site 1) / Num (2#1) - (Site 1 + Site 0 / Num (2#1)) - Site 1) + Num (1#10) * ((- (Site 2 - Site 1)) / Num (2#1) - (Site 2 + Site 0 / Num (2#1)) + Site 1) + Num (17#100) * ((- Site 0) / Num (2#1) + (Site 1 + Site 2 / Num (2#1)) + Site 1 / Num (2#1)) + Num (9#100) * (Site 0 / Num (2#1) + (Site 0 + Site 2 / Num (2#1)) - Site 1 / Num (2#1)) + Num (1#100) * (Site 0 - (Site 2 + Site 1 / Num (2#1)) - (Site 2 - Site 0) / Num (2#1)) + Num (3#50) * ((- Site 0) - (Site 0 + Site 1 / Num (2#1)) + (Site 2 - Site 0) / Num (2#1));
    (- (Num (1#5) * (Site 1 + Site 0 / Num (2#1)))) - Num (1#5) * (Site 2 + Site 0 / Num (2#1)) + Site 0 * Num (3#100)]].
(** sources/garnet.c 769-854: vmixGrn, output *dt *)
Definition Grn_vt :=
  Num (0#1).
(** sources/garnet.c 769-854: vmixGrn, output *dp *)
Definition Grn_vp :=
  Num (0#1).
(** sources/garnet.c 769-854: vmixGrn, output *dt2 *)
Definition Grn_vtt :=
  Num (0#1).
(** sources/garnet.c 769-854: vmixGrn, output *dtdp *)
Definition Grn_vtp :=
  Num (0#1).
(** sources/garnet.c 769-854: vmixGrn, output *dp2 *)
Definition Grn_vpp :=
  Num (0#1).
(** sources/garnet.c 769-854: vmixGrn, output dxdt[i] *)
Definition Grn_v1t :=
  [Num (0#1);
    Num (0#1)].
(** sources/garnet.c 769-854: vmixGrn, output dxdp[i] *)
Definition Grn_v1p :=
  [Num (0#1);
    Num (0#1)].
(** sources/garnet.c 535-626: actGrn, output mu[i] *)
Definition Grn_mu :=
  [Num (21560#1) * Site 1 * Site 2 * (Site 1 + Site 0 / Num (2#1)) + Num (69200#1) * Site 1 * Site 2 * (Site 2 + Site 0 / Num (2#1)) + Num (20320#1) * Site 1 * Site 0 * (Site 1 + Site 2 / Num (2#1)) + Num (2620#1) * Site 1 * Site 0 * (Site 0 + Site 2 / Num (2#1)) + Num (230#1) * Site 2 * Site 0 * (Site 2 + Site 1 / Num (2#1)) + Num (3720#1) * Site 2 * Site 0 * (Site 0 + Site 1 / Num (2#1)) - Var 0 * (Num (-249429#10000) * (Site 1 * Log 1 + Site 2 * Log 2 + Site 0 * Log 0) + Num (1879#100) * Site 1 * Site 2 * (Site 1 + Site 0 / Num (2#1)) + Num (1879#100) * Site 1 * Site 2 * (Site 2 + Site 0 / Num (2#1)) + Num (127#25) * Site 1 * Site 0 * (Site 1 + Site 2 / Num (2#1)) + Num (127#25) * Site 1 * Site 0 * (Site 0 + Site 2 / Num (2#1))) + Var 1 * (Num (1#10) * Site 1 * Site 2 * (Site 1 + Site 0 / Num (2#1)) + Num (1#10) * Site 1 * Site 2 * (Site 2 + Site 0 / Num (2#1)) + Num (17#100) * Site 1 * Site 0 * (Site 1 + Site 2 / Num (2#1)) + Num (9#100) * Site 1 * Site 0 * (Site 0 + Site 2 / Num (2#1)) + Num (1#100) * Site 2 * Site 0 * (Site 2 + Site 1 / Num (2#1)) + Num (3#50) * Site 2 * Site 0 * (Site 0 + Site 1 / Num (2#1))) + (Num (1#1) - Site 0) * (Num (249429#10000) * Var 0 * (Log 0 - Log 2) + (Num (21560#1) - Var 0 * Num (1879#100) + Var 1 * Num (1#10)) * (Site 1 * Site 2 / Num (2#1) - Site 1 * (Site 1 + Site 0 / Num (2#1))) + (Num (69200#1) - Var 0 * Num (1879#100) + Var 1 * Num (1#10)) * ((- Site 1) * Site 2 / Num (2#1) - Site 1 * (Site 2 + Site 0 / Num (2#1))) + (Num (20320#1) - Var 0 * Num (127#25) + Var 1 * Num (17#100)) * ((- Site 1) * Site 0 / Num (2#1) + Site 1 * (Site 1 + Site 2 / Num (2#1))) + (Num (2620#1) - Var 0 * Num (127#25) + Var 1 * Num (9#100)) * (Site 1 * Site 0 / Num (2#1) + Site 1 * (Site 0 + Site 2 / Num (2#1))) + (Num (230#1) + Var 1 * Num (1#100)) * ((- Site 2) * Site 0 + (Site 2 - Site 0) * (Site 2 + Site 1 / Num (2#1))) + (Num (3720#1) + Var 1 * Num (3#50)) * (Site 2 * Site 0 + (Site 2 - Site 0) * (Site 0 + Site 1 / Num (2#1)))) + (- Site 1) * (Num (249429#10000) * Var 0 * (Log 1 - Log 2) + (Num (21560#1) - Var 0 * Num (1879#100) + Var 1 * Num (1#10)) * (Site 1 * Site 2 + (Site 2 - Site 1) * (Site 1 + Site 0 / Num (2#1))) + (Num (69200#1) - Var 0 * Num (1879#100) + Var 1 * Num (1#10)) * ((- Site 1) * Site 2 + (Site 2 - Site 1) * (Site 2 + Site 0 / Num (2#1))) + (Num (20320#1) - Var 0 * Num (127#25) + Var 1 * Num (17#100)) * (Site 1 * Site 0 / Num (2#1) + Site 0 * (Site 1 + Site 2 / Num (2#1))) + (Num (2620#1) - Var 0 * Num (127#25) + Var 1 * Num (9#100)) * ((- Site 1) * Site 0 / Num (2#1) + Site 0 * (Site 0 + Site 2 / Num (2#1))) + (Num (230#1) + Var 1 * Num (1#100)) * ((- Site 2) * Site 0 / Num (2#1) - Site 0 * (Site 2 + Site 1 / Num (2#1))) + (Num (3720#1) + Var 1 * Num (3#50)) * (Site 2 * Site 0 / Num (2#1) - Site 0 * (Site 0 + Site 1 / Num (2#1))));
    Num (21560#1) * Site 1 * Site 2 * (Site 1 + Site 0 / Num (2#1)) + Num (69200#1) * Site 1 * Site 2 * (Site 2 + Site 0 / Num (2#1)) + Num (20320#1) * Site 1 * Site 0 * (Site 1 + Site 2 / Num (2#1)) + Num (2620#1) * Site 1 * Site 0 * (Site 0 + Site 2 / Num (2#1)) + Num (230#1) * Site 2 * Site 0 * (Site 2 + Site 1 / Num (2#1)) + Num (3720#1) * Site 2 * Site 0 * (Site 0 + Site 1 / Num (2#1)) - Var 0 * (Num (-249429#10000) * (Site 1 * Log 1 + Site 2 * Log 2 + Site 0 * Log 0) + Num (1879#100) * Site 1 * Site 2 * (Site 1 + Site 0 / Num (2#1)) + Num (1879#100) * Site 1 * Site 2 * (Site 2 + Site 0 / Num (2#1)) + Num (127#25) * Site 1 * Site 0 * (Site 1 + Site 2 / Num (2#1)) + Num (127#25) * Site 1 * Site 0 * (Site 0 + Site 2 / Num (2#1))) + Var 1 * (Num (1#10) * Site 1 * Site 2 * (Site 1 + Site 0 / Num (2#1)) + Num (1#10) * Site 1 * Site 2 * (Site 2 + Site 0 / Num (2#1)) + Num (17#100) * Site 1 * Site 0 * (Site 1 + Site 2 / Num (2#1)) + Num (9#100) * Site 1 * Site 0 * (Site 0 + Site 2 / Num (2#1)) + Num (1#100) * Site 2 * Site 0 * (Site 2 + Site 1 / Num (2#1)) + Num (3#50) * Site 2 * Site 0 * (Site 0 + Site 1 / Num (2#1))) + (- Site 0) * (Num (249429#10000) * Var 0 * (Log 0 - Log 2) + (Num (21560#1) - Var 0 * Num (1879#100) + Var 1 * Num (1#10)) * (Site 1 * Site 2 / Num (2#1) - Site 1 * (Site 1 + Site 0 / Num (2#1))) + (Num (69200#1) - Var 0 * Num (1879#100) + Var 1 * Num (1#10)) * ((- Site 1) * Site 2 / Num (2#1) - Site 1 * (Site 2 + Site 0 / Num (2#1))) + (Num (20320#1) - Var 0 * Num (127#25) + Var 1 * Num (17#100)) * ((- Site 1) * Site 0 / Num (2#1) + Site 1 * (Site 1 + Site 2 / Num (2#1))) + (Num (2620#1) - Var 0 * Num (127#25) + Var 1 * Num (9#100)) * (Site 1 * Site 0 / Num (2#1) + Site 1 * (Site 0 + Site 2 / Num (2#1))) + (Num (230#1) + Var 1 * Num (1#100)) * ((- Site 2) * Site 0 + (Site 2 - Site 0) * (Site 2 + Site 1 / Num (2#1))) + (Num (3720#1) + Var 1 * Num (3#50)) * (Site 2 * Site 0 + (Site 2 - Site 0) * (Site 0 + Site 1 / Num (2#1)))) + (Num (1#1) - Site 1) * (Num (249429#10000) * Var 0 * (Log 1 - Log 2) + (Num (21560#1) - Var 0 * Num (1879#100) + Var 1 * Num (1#10)) * (Site 1 * Site 2 + (Site 2 - Site 1) * (Site 1 + Site 0 / Num (2#1))) + (Num (69200#1) - Var 0 * Num (1879#100) + Var 1 * Num (1#10)) * ((- Site 1) * Site 2 + (Site 2 - Site 1) * (Site 2 + Site 0 / Num (2#1))) + (Num (20320#1) - Var 0 * Num (127#25) + Var 1 * Num (17#100)) * (Site 1 * Site 0 / Num (2#1) + Site 0 * (Site 1 + Site 2 / Num (2#1))) + (Num (2620#1) - Var 0 * Num (127#25) + Var 1 * Num (9#100)) * ((- Site 1) * Site 0 / Num (2#1) + Site 0 * (Site 0 + Site 2 / Num (2#1))) + (Num (230#1) + Var 1 * Num (1#100)) * ((- Site 2) * Site 0 / Num (2#1) - Site 0 * (Site 2 + Site 1 / Num (2#1))) + (Num (3720#1) + Var 1 * Num (3#50)) * (Site 2 * Site 0 / Num (2#1) - Site 0 * (Site 0 + Site 1 / Num (2#1))));
    Num (21560#1) * Site 1 * Site 2 * (Site 1 + Site 0 / Num (2#1)) + Num (69200#1) * Site 1 * Site 2 * (Site 2 + Site 0 / Num (2#1)) + Num (20320#1) * Site 1 * Site 0 * (Site 1 + Site 2 / Num (2#1)) + Num (2620#1) * Site 1 * Site 0 * (Site 0 + Site 2 / Num (2#1)) + Num (230#1) * Site 2 * Site 0 * (Site 2 + Site 1 / Num (2#1)) + Num (3720#1) * Site 2 * Site 0 * (Site 0 + Site 1 / Num (2#1)) - Var 0 * (Num (-249429#10000) * (Site 1 * Log 1 + Site 2 * Log 2 + Site 0 * Log 0) + Num (1879#100) * Site 1 * Site 2 * (Site 1 + Site 0 / Num (2#1)) + Num (1879#100) * Site 1 * Site 2 * (Site 2 + Site 0 / Num (2#1)) + Num (127#25) * Site 1 * Site 0 * (Site 1 + Site 2 / Num (2#1)) + Num (127#25) * Site 1 * Site 0 * (Site 0 + Site 2 / Num (2#1))) + Var 1 * (Num (1#10) * Site 1 * Site 2 * (Site 1 + Site 0 / Num (2#1)) + Num (1#10) * Site 1 * Site 2 * (Site 2 + Site 0 / Num (2#1)) + Num (17#100) * Site 1 * Site 0 * (Site 1 + Site 2 / Num (2#1)) + Num (9#100) * Site 1 * Site 0 * (Site 0 + Site 2 / Num (2#1)) + Num (1#100) * Site 2 * Site 0 * (Site 2 + Site 1 / Num (2#1)) + Num (3#50) * Site 2 * Site 0 * (Site 0 + Site 1 / Num (2#1))) + (- Site 0) * (Num (249429#10000) * Var 0 * (Log 0 - Log 2) + (Num (21560#1) - Var 0 * Num (1879#100) + Var 1 * Num (1#10)) * (Site 1 * Site 2 / Num (2#1) - Site 1 * (Site 1 + Site 0 / Num (2#1))) + (Num (69200#1) - Var 0 * Num (1879#100) + Var 1 * Num (1#10)) * ((- Site 1) * Site 2 / Num (2#1) - Site 1 * (Site 2 + Site 0 / Num (2#1))) + (Num (20320#1) - Var 0 * Num (127#25) + Var 1 * Num (17#100)) * ((- Site 1) * Site 0 / Num (2#1) + Site 1 * (Site 1 + Site 2 / Num (2#1))) + (Num (2620#1) - Var 0 * Num (127#25) + Var 1 * Num (9#100)) * (Site 1 * Site 0 / Num (2#1) + Site 1 * (Site 0 + Site 2 / Num (2#1))) + (Num (230#1) + Var 1 * Num (1#100)) * ((- Site 2) * Site 0 + (Site 2 - Site 0) * (Site 2 + Site 1 / Num (2#1))) + (Num (3720#1) + Var 1 * Num (3#50)) * (Site 2 * Site 0 + (Site 2 - Site 0) * (Site 0 + Site 1 / Num (2#1)))) + (- Site 1) * (Num (249429#10000) * Var 0 * (Log 1 - Log 2) + (Num (21560#1) - Var 0 * Num (1879#100) + Var 1 * Num (1#10)) * (Site 1 * Site 2 + (Site 2 - Site 1) * (Site 1 + Site 0 / Num (2#1))) + (Num (69200#1) - Var 0 * Num (1879#100) + Var 1 * Num (1#10)) * ((- Site 1) * Site 2 + (Site 2 - Site 1) * (Site 2 + Site 0 / Num (2#1))) + (Num (20320#1) - Var 0 * Num (127#25) + Var 1 * Num (17#100)) * (Site 1 * Site 0 / Num (2#1) + Site 0 * (Site 1 + Site 2 / Num (2#1))) + (Num (2620#1) - Var 0 * Num (127#25) + Var 1 * Num (9#100)) * ((- Site 1) * Site 0 / Num (2#1) + Site 0 * (Site 0 + Site 2 / Num (2#1))) + (Num (230#1) + Var 1 * Num (1#100)) * ((- Site 2) * Site 0 / Num (2#1) - Site 0 * (Site 2 + Site 1 / Num (2#1))) + (Num (3720#1) + Var 1 * Num (3#50)) * (Site 2 * Site 0 / Num (2#1) - Site 0 * (Site 0 + Site 1 / Num (2#1))))].
(** sources/garnet.c 535-626: actGrn, output a[i] is exp of *)
Definition Grn_aArg :=
  [(Num (21560#1) * Site 1 * Site 2 * (Site 1 + Site 0 / Num (2#1)) + Num (69200#1) * Site 1 * Site 2 * (Site 2 + Site 0 / Num (2#1)) + Num (20320#1) * Site 1 * Site 0 * (Site 1 + Site 2 / Num (2#1)) + Num (2620#1) * Site 1 * Site 0 * (Site 0 + Site 2 / Num (2#1)) + Num (230#1) * Site 2 * Site 0 * (Site 2 + Site 1 / Num (2#1)) + Num (3720#1) * Site 2 * Site 0 * (Site 0 + Site 1 / Num (2#1)) - Var 0 * (Num (-249429#10000) * (Site 1 * Log 1 + Site 2 * Log 2 + Site 0 * Log 0) + Num (1879#100) * Site 1 * Site 2 * (Site 1 + Site 0 / Num (2#1)) + Num (1879#100) * Site 1 * Site 2 * (Site 2 + Site 0 / Num (2#1)) + Num (127#25) * Site 1 * Site 0 * (Site 1 + Site 2 / Num (2#1)) + Num (127#25) * Site 1 * Site 0 * (Site 0 + Site 2 / Num (2#1))) + Var 1 * (Num (1#10) * Site 1 * Site 2 * (Site 1 + Site 0 / Num (2#1)) + Num (1#10) * Site 1 * Site 2 * (Site 2 + Site 0 / Num (2#1)) + Num (17#100) * Site 1 * Site 0 * (Site 1 + Site 2 / Num (2#1)) + Num (9#100) * Site 1 * Site 0 * (Site 0 + Site 2 / Num (2#1)) + Num (1#100) * Site 2 * Site 0 * (Site 2 + Site 1 / Num (2#1)) + Num (3#50) * Site 2 * Site 0 * (Site 0 + Site 1 / Num (2#1))) + (Num (1#1) - Site 0) * (Num (249429#10000) * Var 0 * (Log 0 - Log 2) + (Num (21560#1) - Var 0 * Num (1879#100) + Var 1 * Num (1#10)) * (Site 1 * Site 2 / Num (2#1) - Site 1 * (Site 1 + Site 0 / Num (2#1))) + (Num (69200#1) - Var 0 * Num (1879#100) + Var 1 * Num (1#10)) * ((- Site 1) * Site 2 / Num (2#1) - Site 1 * (Site 2 + Site 0 / Num (2#1))) + (Num (20320#1) - Var 0 * Num (127#25) + Var 1 * Num (17#100)) * ((- Site 1) * Site 0 / Num (2#1) + Site 1 * (Site 1 + Site 2 / Num (2#1))) + (Num (2620#1) - Var 0 * Num (127#25) + Var 1 * Num (9#100)) * (Site 1 * Site 0 / Num (2#1) + Site 1 * (Site 0 + Site 2 / Num (2#1))) + (Num (230#1) + Var 1 * Num (1#100)) * ((- Site 2) * Site 0 + (Site 2 - Site 0) * (Site 2 + Site 1 / Num (2#1))) + (Num (3720#1) + Var 1 * Num (3#50)) * (Site 2 * Site 0 + (Site 2 - Site 0) * (Site 0 + Site 1 / Num (2#1)))) + (- Site 1) * (Num (249429#10000) * Var 0 * (Log 1 - Log 2) + (Num (21560#1) - Var 0 * Num (1879#100) + Var 1 * Num (1#10)) * (Site 1 * Site 2 + (Site 2 - Site 1) * (Site 1 + Site 0 / Num (2#1))) + (Num (69200#1) - Var 0 * Num (1879#100) + Var 1 * Num (1#10)) * ((- Site 1) * Site 2 + (Site 2 - Site 1) * (Site 2 + Site 0 / Num (2#1))) + (Num (20320#1) - Var 0 * Num (127#25) + Var 1 * Num (17#100)) * (Site 1 * Site 0 / Num (2#1) + Site 0 * (Site 1 + Site 2 / Num (2#1))) + (Num (2620#1) - Var 0 * Num (127#25) + Var 1 * Num (9#100)) * ((- Site 1) * Site 0 / Num (2#1) + Site 0 * (Site 0 + Site 2 / Num (2#1))) + (Num (230#1) + Var 1 * Num (1#100)) * ((- Site 2) * Site 0 / Num (2#1) - Site 0 * (Site 2 + Site 1 / Num (2#1))) + (Num (3720#1) + Var 1 * Num (3#50)) * (Site 2 * Site 0 / Num (2#1) - Site 0 * (Site 0 + Site 1 / Num (2#1))))) / (Num (83143#10000) * Var 0);
    (Num (21560#1) * Site 1 * Site 2 * (Site 1 + Site 0 / Num (2#1)) + Num (69200#1) * Site 1 * Site 2 * (Site 2 + Site 0 / Num (2#1)) + Num (20320#1) * Site 1 * Site 0 * (Site 1 + Site 2 / Num (2#1)) + Num (2620#1) * Site 1 * Site 0 * (Site 0 + Site 2 / Num (2#1)) + Num (230#1) * Site 2 * Site 0 * (Site 2 + Site 1 / Num (2#1)) + Num (3720#1) * Site 2 * Site 0 * (Site 0 + Site 1 / Num (2#1)) - Var 0 * (Num (-249429#10000) * (Site 1 * Log 1 + Site 2 * Log 2 + Site 0 * Log 0) + Num (1879#100) * Site 1 * Site 2 * (Site 1 + Site 0 / Num (2#1)) + Num (1879#100) * Site 1 * Site 2 * (Site 2 + Site 0 / Num (2#1)) + Num (127#25) * Site 1 * Site 0 * (Site 1 + Site 2 / Num (2#1)) + Num (127#25) * Site 1 * Site 0 * (Site 0 + Site 2 / Num (2#1))) + Var 1 * (Num (1#10) * Site 1 * Site 2 * (Site 1 + Site 0 / Num (2#1)) + Num (1#10) * Site 1 * Site 2 * (Site 2 + Site 0 / Num (2#1)) + Num (17#100) * Site 1 * Site 0 * (Site 1 + Site 2 / Num (2#1)) + Num (9#100) * Site 1 * Site 0 * (Site 0 + Site 2 / Num (2#1)) + Num (1#100) * Site 2 * Site 0 * (Site 2 + Site 1 / Num (2#1)) + Num (3#50) * Site 2 * Site 0 * (Site 0 + Site 1 / Num (2#1))) + (- Site 0) * (Num (249429#10000) * Var 0 * (Log 0 - Log 2) + (Num (21560#1) - Var 0 * Num (1879#100) + Var 1 * Num (1#10)) * (Site 1 * Site 2 / Num (2#1) - Site 1 * (Site 1 + Site 0 / Num (2#1))) + (Num (69200#1) - Var 0 * Num (1879#100) + Var 1 * Num (1#10)) * ((- Site 1) * Site 2 / Num (2#1) - Site 1 * (Site 2 + Site 0 / Num (2#1))) + (Num (20320#1) - Var 0 * Num (127#25) + Var 1 * Num (17#100)) * ((- Site 1) * Site 0 / Num (2#1) + Site 1 * (Site 1 + Site 2 / Num (2#1))) + (Num (2620#1) - Var 0 * Num (127#25) + Var 1 * Num (9#100)) * (Site 1 * Site 0 / Num (2#1) + Site 1 * (Site 0 + Site 2 / Num (2#1))) + (Num (230#1) + Var 1 * Num (1#100)) * ((- Site 2) * Site 0 + (Site 2 - Site 0) * (Site 2 + Site 1 / Num (2#1))) + (Num (3720#1) + Var 1 * Num (3#50)) * (Site 2 * Site 0 + (Site 2 - Site 0) * (Site 0 + Site 1 / Num (2#1)))) + (Num (1#1) - Site 1) * (Num (249429#10000) * Var 0 * (Log 1 - Log 2) + (Num (21560#1) - Var 0 * Num (1879#100) + Var 1 * Num (1#10)) * (Site 1 * Site 2 + (Site 2 - Site 1) * (Site 1 + Site 0 / Num (2#1))) + (Num (69200#1) - Var 0 * Num (1879#100) + Var 1 * Num (1#10)) * ((- Site 1) * Site 2 + (Site 2 - Site 1) * (Site 2 + Site 0 / Num (2#1))) + (Num (20320#1) - Var 0 * Num (127#25) + Var 1 * Num (17#100)) * (Site 1 * Site 0 / Num (2#1) + Site 0 * (Site 1 + Site 2 / Num (2#1))) + (Num (2620#1) - Var 0 * Num (127#25) + Var 1 * Num (9#100)) * ((- Site 1) * Site 0 / Num (2#1) + Site 0 * (Site 0 + Site 2 / Num (2#1))) + (Num (230#1) + Var 1 * Num (1#100)) * ((- Site 2) * Site 0 / Num (2#1) - Site 0 * (Site 2 + Site 1 / Num (2#1))) + (Num (3720#1) + Var 1 * Num (3#50)) * (Site 2 * Site 0 / Num (2#1) - Site 0 * (Site 0 + Site 1 / Num (2#1))))) / (Num (83143#10000) * Var 0);
    (Num (21560#1) * Site 1 * Site 2 * (Site 1 + Site 0 / Num (2#1)) + Num (69200#1) * Site 1 * Site 2 * (Site 2 + Site 0 / Num (2#1)) + Num (20320#1) * Site 1 * Site 0 * (Site 1 + Site 2 / Num (2#1)) + Num (2620#1) * Site 1 * Site 0 * (Site 0 + Site 2 / Num (2#1)) + Num (230#1) * Site 2 * Site 0 * (Site 2 + Site 1 / Num (2#1)) + Num (3720#1) * Site 2 * Site 0 * (Site 0 + Site 1 / Num (2#1)) - Var 0 * (Num (-249429#10000) * (Site 1 * Log 1 + Site 2 * Log 2 + Site 0 * Log 0) + Num (1879#100) * Site 1 * Site 2 * (Site 1 + Site 0 / Num (2#1)) + Num (1879#100) * Site 1 * Site 2 * (Site 2 + Site 0 / Num (2#1)) + Num (127#25) * Site 1 * Site 0 * (Site 1 + Site 2 / Num (2#1)) + Num (127#25) * Site 1 * Site 0 * (Site 0 + Site 2 / Num (2#1))) + Var 1 * (Num (1#10) * Site 1 * Site 2 * (Site 1 + Site 0 / Num (2#1)) + Num (1#10) * Site 1 * Site 2 * (Site 2 + Site 0 / Num (2#1)) + Num (17#100) * Site 1 * Site 0 * (Site 1 + Site 2 / Num (2#1)) + Num (9#100) * Site 1 * Site 0 * (Site 0 + Site 2 / Num (2#1)) + Num (1#100) * Site 2 * Site 0 * (Site 2 + Site 1 / Num (2#1)) + Num (3#50) * Site 2 * Site 0 * (Site 0 + Site 1 / Num (2#1))) + (- Site 0) * (Num (249429#10000) * Var 0 * (Log 0 - Log 2) + (Num (21560#1) - Var 0 * Num (1879#100) + Var 1 * Num (1#10)) * (Site 1 * Site 2 / Num (2#1) - Site 1 * (Site 1 + Site 0 / Num (2#1))) + (Num (69200#1) - Var 0 * Num (1879#100) + Var 1 * Num (1#10)) * ((- Site 1) * Site 2 / Num (2#1) - Site 1 * (Site 2 + Site 0 / Num (2#1))) + (Num (20320#1) - Var 0 * Num (127#25) + Var 1 * Num (17#100)) * ((- Site 1) * Site 0 / Num (2#1) + Site 1 * (Site 1 + Site 2 / Num (2#1))) + (Num (2620#1) - Var 0 * Num (127#25) + Var 1 * Num (9#100)) * (Site 1 * Site 0 / Num (2#1) + Site 1 * (Site 0 + Site 2 / Num (2#1))) + (Num (230#1) + Var 1 * Num (1#100)) * ((- Site 2) * Site 0 + (Site 2 - Site 0) * (Site 2 + Site 1 / Num (2#1))) + (Num (3720#1) + Var 1 * Num (3#50)) * (Site 2 * Site 0 + (Site 2 - Site 0) * (Site 0 + Site 1 / Num (2#1)))) + (- Site 1) * (Num (249429#10000) * Var 0 * (Log 1 - Log 2) + (Num (21560#1) - Var 0 * Num (1879#100) + Var 1 * Num (1#10)) * (Site 1 * Site 2 + (Site 2 - Site 1) * (Site 1 + Site 0 / Num (2#1))) + (Num (69200#1) - Var 0 * Num (1879#100) + Var 1 * Num (1#10)) * ((- Site 1) * Site 2 + (Site 2 - Site 1) * (Site 2 + Site 0 / Num (2#1))) + (Num (20320#1) - Var 0 * Num (127#25) + Var 1 * Num (17#100)) * (Site 1 * Site 0 / Num (2#1) + Site 0 * (Site 1 + Site 2 / Num (2#1))) + (Num (2620#1) - Var 0 * Num (127#25) + Var 1 * Num (9#100)) * ((- Site 1) * Site 0 / Num (2#1) + Site 0 * (Site 0 + Site 2 / Num (2#1))) + (Num (230#1) + Var 1 * Num (1#100)) * ((- Site 2) * Site 0 / Num (2#1) - Site 0 * (Site 2 + Site 1 / Num (2#1))) + (Num (3720#1) + Var 1 * Num (3#50)) * (Site 2 * Site 0 / Num (2#1) - Site 0 * (Site 0 + Site 1 / Num (2#1))))) / (Num (83143#10000) * Var 0)].
(** sources/garnet.c 535-626: actGrn, output dx[i][k] is a[i] times *)
Definition Grn_aDx :=
  [[((Num (1#1) - Site 0) * (Num (249429#10000) * Var 0 * (Num (1#1) / Site 0 + Num (1#1) / Site 2) + Site 1 * (Num (69200#1) - Var 0 * Num (1879#100) + Var 1 * Num (1#10) - (Num (21560#1) - Var 0 * Num (1879#100) + Var 1 * Num (1#10)) + (Num (2620#1) - Var 0 * Num (127#25) + Var 1 * Num (9#100)) - (Num (20320#1) - Var 0 * Num (127#25) + Var 1 * Num (17#100))) + Num (2#1) * (Site 2 - Site 0) * (Num (3720#1) + Var 1 * Num (3#50) - (Num (230#1) + Var 1 * Num (1#100))) - Num (2#1) * (Num (230#1) + Var 1 * Num (1#100)) * (Site 2 + Site 1 / Num (2#1)) - Num (2#1) * (Num (3720#1) + Var 1 * Num (3#50)) * (Site 0 + Site 1 / Num (2#1))) + (- Site 1) * (Num (249429#10000) * Var 0 * (Num (1#1) / Site 2) + (Num (21560#1) - Var 0 * Num (1879#100) + Var 1 * Num (1#10)) * ((Site 2 - Site 1) / Num (2#1) - (Site 1 + Site 0 / Num (2#1)) - Site 1) + (Num (69200#1) - Var 0 * Num (1879#100) + Var 1 * Num (1#10)) * ((- (Site 2 - Site 1)) / Num (2#1) - (Site 2 + Site 0 / Num (2#1)) + Site 1) + (Num (20320#1) - Var 0 * Num (127#25) + Var 1 * Num (17#100)) * ((- Site 0) / Num (2#1) + (Site 1 + Site 2 / Num (2#1)) + Site 1 / Num (2#1)) + (Num (2620#1) - Var 0 * Num (127#25) + Var 1 * Num (9#100)) * (Site 0 / Num (2#1) + (Site 0 + Site 2 / Num (2#1)) - Site 1 / Num (2#1)) + (Num (230#1) + Var 1 * Num (1#100)) * (Site 0 - (Site 2 + Site 1 / Num (2#1)) - (Site 2 - Site 0) / Num (2#1)) + (Num (3720#1) + Var 1 * Num (3#50)) * ((- Site 0) - (Site 0 + Site 1 / Num (2#1)) + (Site 2 - Site 0) / Num (2#1)))) / (Num (83143#10000) * Var 0);
    ((Num (1#1) - Site 0) * (Num (249429#10000) * Var 0 * (Num (1#1) / Site 2) + (Num (21560#1) - Var 0 * Num (1879#100) + Var 1 * Num (1#10)) * ((Site 2 - Site 1) / Num (2#1) - (Site 1 + Site 0 / Num (2#1)) - Site 1) + (Num (69200#1) - Var 0 * Num (1879#100) + Var 1 * Num (1#10)) * ((- (Site 2 - Site 1)) / Num (2#1) - (Site 2 + Site 0 / Num (2#1)) + Site 1) + (Num (20320#1) - Var 0 * Num (127#25) + Var 1 * Num (17#100)) * ((- Site 0) / Num (2#1) + (Site 1 + Site 2 / Num (2#1)) + Site 1 / Num (2#1)) + (Num (2620#1) - Var 0 * Num (127#25) + Var 1 * Num (9#100)) * (Site 0 / Num (2#1) + (Site 0 + Site 2 / Num (2#1)) - Site 1 / Num (2#1)) + (Num (230#1) + Var 1 * Num (1#100)) * (Site 0 - (Site 2 + Site 1 / Num (2#1)) - (Site 2 - Site 0) / Num (2#1)) + (Num (3720#1) + Var 1 * Num (3#50)) * ((- Site 0) - (Site 0 + Site 1 / Num (2#1)) + (Site 2 - Site 0) / Num (2#1))) + (- Site 1) * (Num (249429#10000) * Var 0 * (Num (1#1) / Site 1 + Num (1#1) / Site 2) + Num (2#1) * (Site 2 - Site 1) * (Num (21560#1) - Var 0 * Num (1879#100) + Var 1 * Num (1#10) - (Num (69200#1) - Var 0 * Num (1879#100) + Var 1 * Num (1#10))) - Num (2#1) * (Num (21560#1) - Var 0 * Num (1879#100) + Var 1 * Num (1#10)) * (Site 1 + Site 0 / Num (2#1)) - Num (2#1) * (Num (69200#1) - Var 0 * Num (1879#100) + Var 1 * Num (1#10)) * (Site 2 + Site 0 / Num (2#1)) + Site 0 * (Num (20320#1) - Var 0 * Num (127#25) + Var 1 * Num (17#100) - (Num (2620#1) - Var 0 * Num (127#25) + Var 1 * Num (9#100)) + (Num (230#1) + Var 1 * Num (1#100)) - (Num (3720#1) + Var 1 * Num (3#50))))) / (Num (83143#10000) * Var 0)];
    [((- Site 0) * (Num (249429#10000) * Var 0 * (Num (1#1) / Site 0 + Num (1#1) / Site 2) + Site 1 * (Num (69200#1) - Var 0 * Num (1879#100) + Var 1 * Num (1#10) - (Num (21560#1) - Var 0 * Num (1879#100) + Var 1 * Num (1#10)) + (Num (2620#1) - Var 0 * Num (127#25) + Var 1 * Num (9#100)) - (Num (20320#1) - Var 0 * Num (127#25) + Var 1 * Num (17#100))) + Num (2#1) * (Site 2 - Site 0) * (Num (3720#1) + Var 1 * Num (3#50) - (Num (230#1) + Var 1 * Num (1#100))) - Num (2#1) * (Num (230#1) + Var 1 * Num (1#100)) * (Site 2 + Site 1 / Num (2#1)) - Num (2#1) * (Num (3720#1) + Var 1 * Num (3#50)) * (Site 0 + Site 1 / Num (2#1))) + (Num (1#1) - Site 1) * (Num (249429#10000) * Var 0 * (Num (1#1) / Site 2) + (Num (21560#1) - Var 0 * Num (1879#100) + Var 1 * Num (1#10)) * ((Site 2 - Site 1) / Num (2#1) - (Site 1 + Site 0 / Num (2#1)) - Site 1) + (Num (69200#1) - Var 0 * Num (1879#100) + Var 1 * Num (1#10)) * ((- (Site 2 - Site 1)) / Num (2#1) - (Site 2 + Site 0 / Num (2#1)) + Site 1) + (Num (20320#1) - Var 0 * Num (127#25) + Var 1 * Num (17#100)) * ((- Site 0) / Num (2#1) + (Site 1 + Site 2 / Num (2#1)) + Site 1 / Num (2#1)) + (Num (2620#1) - Var 0 * Num (127#25) + Var 1 * Num (9#100)) * (Site 0 / Num (2#1) + (Site 0 + Site 2 / Num (2#1)) - Site 1 / Num (2#1)) + (Num (230#1) + Var 1 * Num (1#100)) * (Site 0 - (Site 2 + Site 1 / Num (2#1)) - (Site 2 - Site 0) / Num (2#1)) + (Num (3720#1) + Var 1 * Num (3#50)) * ((- Site 0) - (Site 0 + Site 1 / Num (2#1)) + (Site 2 - Site 0) / Num (2#1)))) / (Num (83143#10000) * Var 0);
    ((- Site 0) * (Num (249429#10000) * Var 0 * (Num (1#1) / Site 2) + (Num (21560#1) - Var 0 * Num (1879#100) + Var 1 * Num (1#10)) * ((Site 2 - Site 1) / Num (2#1) - (Site 1 + Site 0 / Num (2#1)) - Site 1) + (Num (69200#1) - Var 0 * Num (1879#100) + Var 1 * Num (1#10)) * ((- (Site 2 - Site 1)) / Num (2#1) - (Site 2 + Site 0 / Num (2#1)) + Site 1) + (Num (20320#1) - Var 0 * Num (127#25) + Var 1 * Num (17#100)) * ((- Site 0) / Num (2#1) + (Site 1 + Site 2 / Num (2#1)) + Site 1 / Num (2#1)) + (Num (2620#1) - Var 0 * Num (127#25) + Var 1 * Num (9#100)) * (Site 0 / Num (2#1) + (Site 0 + Site 2 / Num (2#1)) - Site 1 / Num (2#1)) + (Num (230#1) + Var 1 * Num (1#100)) * (Site 0 - (Site 2 + Site 1 / Num (2#1)) - (Site 2 - Site 0) / Num (2#1)) + (Num (3720#1) + Var 1 * Num (3#50)) * ((- Site 0) - (Site 0 + Site 1 / Num (2#1)) + (Site 2 - Site 0) / Num (2#1))) + (Num (1#1) - Site 1) * (Num (249429#10000) * Var 0 * (Num (1#1) / Site 1 + Num (1#1) / Site 2) + Num (2#1) * (Site 2 - Site 1) * (Num (21560#1) - Var 0 * Num (1879#100) + Var 1 * Num (1#10) - (Num (69200#1) - Var 0 * Num (1879#100) + Var 1 * Num (1#10))) - Num (2#1) * (Num (21560#1) - Var 0 * Num (1879#100) + Var 1 * Num (1#10)) * (Site 1 + Site 0 / Num (2#1)) - Num (2#1) * (Num (69200#1) - Var 0 * Num (1879#100) + Var 1 * Num (1#10)) * (Site 2 + Site 0 / Num (2#1)) + Site 0 * (Num (20320#1) - Var 0 * Num (127#25) + Var 1 * Num (17#100) - (Num (2620#1) - Var 0 * Num (127#25) + Var 1 * Num (9#100)) + (Num (230#1) + Var 1 * Num (1#100)) - (Num (3720#1) + Var 1 * Num (3#50))))) / (Num (83143#10000) * Var 0)];
    [((- Site 0) * (Num (249429#10000) * Var 0 * (Num (1#1) / Site 0 + Num (1#1) / Site 2) + Site 1 * (Num (69200#1) - Var 0 * Num (1879#100) + Var 1 * Num (1#10) - (Num (21560#1) - Var 0 * Num (1879#100) + Var 1 * Num (1#10)) + (Num (2620#1) - Var 0 * Num (127#25) + Var 1 * Num (9#100)) - (Num (20320#1) - Var 0 * Num (127#25) + Var 1 * Num (17#100))) + Num (2#1) * (Site 2 - Site 0) * (Num (3720#1) + Var 1 * Num (3#50) - (Num (230#1) + Var 1 * Num (1#100))) - Num (2#1) * (Num (230#1) + Var 1 * Num (1#100)) * (Site 2 + Site 1 / Num (2#1)) - Num (2#1) * (Num (3720#1) + Var 1 * Num (3#50)) * (Site 0 + Site 1 / Num (2#1))) + (- Site 1) * (Num (249429#10000) * Var 0 * (Num (1#1) / Site 2) + (Num (21560#1) - Var 0 * Num (1879#100) + Var 1 * Num (1#10)) * ((Site 2 - Site 1) / Num (2#1) - (Site 1 + Site 0 / Num (2#1)) - Site 1) + (Num (69200#1) - Var 0 * Num (1879#100) + Var 1 * Num (1#10)) * ((- (Site 2 - Site 1)) / Num (2#1) - (Site 2 + Site 0 / Num (2#1)) + Site 1) + (Num (20320#1) - Var 0 * Num (127#25) + Var 1 * Num (17#100)) * ((- Site 0) / Num (2#1) + (Site 1 + Site 2 / Num (2#1)) + Site 1 / Num (2#1)) + (Num (2620#1) - Var 0 * Num (127#25) + Var 1 * Num (9#100)) * (Site 0 / Num (2#1) + (Site 0 + Site 2 / Num (2#1)) - Site 1 / Num (2#1)) + (Num (230#1) + Var 1 * Num (1#100)) * (Site 0 - (Site 2 + Site 1 / Num (2#1)) - (Site 2 - Site 0) / Num (2#1)) + (Num (3720#1) + Var 1 * Num (3#50)) * ((- Site 0) - (Site 0 + Site 1 / Num (2#1)) + (Site 2 - Site 0) / Num (2#1)))) / (Num (83143#10000) * Var 0);
    ((- Site 0) * (Num (249429#10000) * Var 0 * (Num (1#1) / Site 2) + (Num (21560#1) - Var 0 * Num (1879#100) + Var 1 * Num (1#10)) * ((Site 2 - Site 1) / Num (2#1) - (Site 1 + Site 0 / Num (2#1)) - Site 1) + (Num (69200#1) - Var 0 * Num (1879#100) + Var 1 * Num (1#10)) * ((- (Site 2 - Site 1)) / Num (2#1) - (Site 2 + Site 0 / Num (2#1)) + Site 1) + (Num (20320#1) - Var 0 * Num (127#25) + Var 1 * Num (17#100)) * ((- Site 0) / Num (2#1) + (Site 1 + Site 2 / Num (2#1)) + Site 1 / Num (2#1)) + (Num (2620#1) - Var 0 * Num (127#25) + Var 1 * Num (9#100)) * (Site 0 / Num (2#1) + (Site 0 + Site 2 / Num (2#1)) - Site 1 / Num (2#1)) + (Num (230#1) + Var 1 * Num (1#100)) * (Site 0 - (Site 2 + Site 1 / Num (2#1)) - (Site 2 - Site 0) / Num (2#1)) + (Num (3720#1) + Var 1 * Num (3#50)) * ((- Site 0) - (Site 0 + Site 1 / Num (2#1)) + (Site 2 - Site 0) / Num (2#1))) + (- Site 1) * (Num (249429#10000) * Var 0 * (Num (1#1) / Site 1 + Num (1#1) / Site 2) + Num (2#1) * (Site 2 - Site 1) * (Num (21560#1) - Var 0 * Num (1879#100) + Var 1 * Num (1#10) - (Num (69200#1) - Var 0 * Num (1879#100) + Var 1 * Num (1#10))) - Num (2#1) * (Num (21560#1) - Var 0 * Num (1879#100) + Var 1 * Num (1#10)) * (Site 1 + Site 0 / Num (2#1)) - Num (2#1) * (Num (69200#1) - Var 0 * Num (1879#100) + Var 1 * Num (1#10)) * (Site 2 + Site 0 / Num (2#1)) + Site 0 * (Num (20320#1) - Var 0 * Num (127#25) + Var 1 * Num (17#100) - (Num (2620#1) - Var 0 * Num (127#25) + Var 1 * Num (9#100)) + (Num (230#1) + Var 1 * Num (1#100)) - (Num (3720#1) + Var 1 * Num (3#50))))) / (Num (83143#10000) * Var 0)]].
(** the site fractions of sources/garnet.c (first lines of each function); clamped: (x > DBL_EPSILON) ? x : DBL_EPSILON;
    unclamped: an argument of log or a denominator that the code does not guard *)
Definition Grn_sites : list site :=
  [mkSite (Var 2) Low;
   mkSite (Var 3) Low;
   mkSite (Num (1#1) - Var 2 - Var 3) Low].
Definition Grn : phase :=
  mkPhase "garnet" 3 2 conGrn Grn_sites Grn_g0 Grn_g1 Grn_g2 Grn_g3 Grn_h0 Grn_s0 Grn_s1 Grn_s2 Grn_c0 Grn_ct Grn_c1
    Grn_v0 Grn_v1 Grn_v2 Grn_vt Grn_vp Grn_vtt Grn_vtp Grn_vpp Grn_v1t Grn_v1p Grn_mu Grn_aArg Grn_aDx.

(** sources/biotite.c 468-510: gmixBio, output *gmix *)
Definition Bio_g0 :=
  Num (335766#25) * Site 0 * Site 1 - Var 0 * (Num (-83143#10000) * (Site 0 * Log 0 + Site 1 * Log 1)).
(** sources/biotite.c 468-510: gmixBio, output dx[i] *)
Definition Bio_g1 :=
  [Num (83143#10000) * Var 0 * (Log 0 - Log 1) + Num (335766#25) * (Site 1 - Site 0)].
(** sources/biotite.c 468-510: gmixBio, output dx2[i][j] *)
Definition Bio_g2 :=
  [[Num (83143#10000) * Var 0 * (Num (1#1) / Site 0 + Num (1#1) / Site 1) - Num (671532#25)]].
(** sources/biotite.c 468-510: gmixBio, output dx3[i][j][k] *)
Definition Bio_g3 :=
  [[[Num (83143#10000) * Var 0 * (Num (1#1) / (Site 1 * Site 1) - Num (1#1) / (Site 0 * Site 0))]]].
(** sources/biotite.c 513-521: hmixBio, output *hmix *)
Definition Bio_h0 :=
  Num (335766#25) * Site 0 * Site 1 - Var 0 * (Num (-83143#10000) * (Site 0 * Log 0 + Site 1 * Log 1)) + Var 0 * (Num (-83143#10000) * (Site 0 * Log 0 + Site 1 * Log 1)).
(** sources/biotite.c 524-557: smixBio, output *smix *)
Definition Bio_s0 :=
  Num (-83143#10000) * (Site 0 * Log 0 + Site 1 * Log 1).
(** sources/biotite.c 524-557: smixBio, output dx[i] *)
Definition Bio_s1 :=
  [(- (Num (83143#10000) * (Log 0 - Log 1)))].
(** sources/biotite.c 524-557: smixBio, output dx2[i][j] *)
Definition Bio_s2 :=
  [[(- (Num (83143#10000) * (Num (1#1) / Site 0 + Num (1#1) / Site 1)))]].
(** sources/biotite.c 560-587: cpmixBio, output *cpmix *)
Definition Bio_c0 :=
  Num (0#1).
(** sources/biotite.c 560-587: cpmixBio, output *dt *)
Definition Bio_ct :=
  Num (0#1).
(** sources/biotite.c 560-587: cpmixBio, output dx[i] *)
Definition Bio_c1 :=
  [Num (0#1)].
(** sources/biotite.c 590-665: vmixBio, output *vmix *)
Definition Bio_v0 :=
  Num (0#1).
(** sources/biotite.c 590-665: vmixBio, output dx[i] *)
Definition Bio_v1 :=
  [Num (0#1)].
(** sources/biotite.c 590-665: vmixBio, output dx2[i][j] *)
Definition Bio_v2 :=
  [[Num (0#1)]].
(** sources/biotite.c 590-665: vmixBio, output *dt *)
Definition Bio_vt :=
  Num (0#1).
(** sources/biotite.c 590-665: vmixBio, output *dp *)
Definition Bio_vp :=
  Num (0#1).
(** sources/biotite.c 590-665: vmixBio, output *dt2 *)
Definition Bio_vtt :=
  Num (0#1).
(** sources/biotite.c 590-665: vmixBio, output *dtdp *)
Definition Bio_vtp :=
  Num (0#1).
(** sources/biotite.c 590-665: vmixBio, output *dp2 *)
Definition Bio_vpp :=
  Num (0#1).
(** sources/biotite.c 590-665: vmixBio, output dxdt[i] *)
Definition Bio_v1t :=
  [Num (0#1)].
(** sources/biotite.c 590-665: vmixBio, output dxdp[i] *)
Definition Bio_v1p :=
  [Num (0#1)].
(** sources/biotite.c 387-465: actBio, output mu[i] *)
Definition Bio_mu :=
  [Num (335766#25) * Site 0 * Site 1 - Var 0 * (Num (-83143#10000) * (Site 0 * Log 0 + Site 1 * Log 1)) + (Num (1#1) - Site 0) * (Num (83143#10000) * Var 0 * (Log 0 - Log 1) + Num (335766#25) * (Site 1 - Site 0));
    Num (335766#25) * Site 0 * Site 1 - Var 0 * (Num (-83143#10000) * (Site 0 * Log 0 + Site 1 * Log 1)) + (- Site 0) * (Num (83143#10000) * Var 0 * (Log 0 - Log 1) + Num (335766#25) * (Site 1 - Site 0))].
(** sources/biotite.c 387-465: actBio, output a[i] is exp of *)
Definition Bio_aArg :=
  [(Num (335766#25) * Site 0 * Site 1 - Var 0 * (Num (-83143#10000) * (Site 0 * Log 0 + Site 1 * Log 1)) + (Num (1#1) - Site 0) * (Num (83143#10000) * Var 0 * (Log 0 - Log 1) + Num (335766#25) * (Site 1 - Site 0))) / (Num (83143#10000) * Var 0);
    (Num (335766#25) * Site 0 * Site 1 - Var 0 * (Num (-83143#10000) * (Site 0 * Log 0 + Site 1 * Log 1)) + (- Site 0) * (Num (83143#10000) * Var 0 * (Log 0 - Log 1) + Num (335766#25) * (Site 1 - Site 0))) / (Num (83143#10000) * Var 0)].
(** sources/biotite.c 387-465: actBio, output dx[i][k] is a[i] times *)
Definition Bio_aDx :=
  [[(Num (1#1) - Site 0) * (Num (83143#10000) * Var 0 * (Num (1#1) / Site 0 + Num (1#1) / Site 1) - Num (671532#25)) / (Num (83143#10000) * Var 0)];
    [(- Site 0) * (Num (83143#10000) * Var 0 * (Num (1#1) / Site 0 + Num (1#1) / Site 1) - Num (671532#25)) / (Num (83143#10000) * Var 0)]].
(** the site fractions of sources/biotite.c (first lines of each function); clamped: (x > DBL_EPSILON) ? x : DBL_EPSILON;
    unclamped: an argument of log or a denominator that the code does not guard *)
Definition Bio_sites : list site :=
  [mkSite (Var 2) Low;
   mkSite (Num (1#1) - Var 2) Low].
Definition Bio : phase :=
  mkPhase "biotite" 2 1 conBio Bio_sites Bio_g0 Bio_g1 Bio_g2 Bio_g3 Bio_h0 Bio_s0 Bio_s1 Bio_s2 Bio_c0 Bio_ct Bio_c1
    Bio_v0 Bio_v1 Bio_v2 Bio_vt Bio_vp Bio_vtt Bio_vtp Bio_vpp Bio_v1t Bio_v1p Bio_mu Bio_aArg Bio_aDx.

(** sources/hornblende.c 507-557: gmixHrn, output *gmix *)
Definition Hrn_g0 :=
  Num (702912#25) * Var 2 + Num (16780#1) * Var 3 + Num (-702912#25) * Var 2 * Var 2 + Num (-16780#1) * Var 3 * Var 3 - Var 0 * (Num (-83143#10000) * (Num (4#1) * (Num (1#1) - Var 2) * Log 0 + Num (4#1) * Var 2 * Log 1 + Var 3 * Log 2 + (Num (1#1) - Var 3) * Log 3)).
(** sources/hornblende.c 507-557: gmixHrn, output dx[i] *)
Definition Hrn_g1 :=
  [Num (83143#10000) * Var 0 * (Num (4#1) * Log 1 - Num (4#1) * Log 0) + Num (702912#25) + Num (-1405824#25) * Var 2;
    Num (83143#10000) * Var 0 * (Log 2 - Log 3) + Num (16780#1) + Num (-33560#1) * Var 3].
(** sources/hornblende.c 507-557: gmixHrn, output dx2[i][j] *)
Definition Hrn_g2 :=
  [[Num (83143#10000) * Var 0 * (Num (4#1) / Site 1 + Num (4#1) / Site 0) + Num (-1405824#25);
    Num (0#1)];
    [Num (0#1);
    Num (83143#10000) * Var 0 * (Num (1#1) / Site 2 + Num (1#1) / Site 3) + Num (-33560#1)]].
(** sources/hornblende.c 507-557: gmixHrn, output dx3[i][j][k] *)
Definition Hrn_g3 :=
  [[[Num (83143#10000) * Var 0 * (Num (-4#1) / (Site 1 * Site 1) + Num (4#1) / (Site 0 * Site 0));
    Num (0#1)];
    [Num (0#1);
    Num (0#1)]];
    [[Num (0#1);
    Num (0#1)];
    [Num (0#1);
    Num (83143#10000) * Var 0 * (Num (-1#1) / (Site 2 * Site 2) + Num (1#1) / (Site 3 * Site 3))]]].
(** sources/hornblende.c 560-571: hmixHrn, output *hmix *)
Definition Hrn_h0 :=
  Num (702912#25) * Var 2 + Num (16780#1) * Var 3 + Num (-702912#25) * Var 2 * Var 2 + Num (-16780#1) * Var 3 * Var 3 - Var 0 * (Num (-83143#10000) * (Num (4#1) * (Num (1#1) - Var 2) * Log 0 + Num (4#1) * Var 2 * Log 1 + Var 3 * Log 2 + (Num (1#1) - Var 3) * Log 3)) + Var 0 * (Num (-83143#10000) * (Num (4#1) * (Num (1#1) - Var 2) * Log 0 + Num (4#1) * Var 2 * Log 1 + Var 3 * Log 2 + (Num (1#1) - Var 3) * Log 3)).
(** sources/hornblende.c 574-613: smixHrn, output *smix *)
Definition Hrn_s0 :=
  Num (-83143#10000) * (Num (4#1) * (Num (1#1) - Var 2) * Log 0 + Num (4#1) * Var 2 * Log 1 + Var 3 * Log 2 + (Num (1#1) - Var 3) * Log 3).
(** sources/hornblende.c 574-613: smixHrn, output dx[i] *)
Definition Hrn_s1 :=
  [(- (Num (83143#10000) * (Num (4#1) * Log 1 - Num (4#1) * Log 0)));
    (- (Num (83143#10000) * (Log 2 - Log 3)))].
(** sources/hornblende.c 574-613: smixHrn, output dx2[i][j] *)
Definition Hrn_s2 :=
  [[(- (Num (83143#10000) * (Num (4#1) / Site 1 + Num (4#1) / Site 0)));
    Num (0#1)];
    [Num (0#1);
    (- (Num (83143#10000) * (Num (1#1) / Site 2 + Num (1#1) / Site 3)))]].
(** sources/hornblende.c 616-644: cpmixHrn, output *cpmix *)
Definition Hrn_c0 :=
  Num (0#1).
(** sources/hornblende.c 616-644: cpmixHrn, output *dt *)
Definition Hrn_ct :=
  Num (0#1).
(** sources/hornblende.c 616-644: cpmixHrn, output dx[i] *)
Definition Hrn_c1 :=
  [Num (0#1);
    Num (0#1)].
(** sources/hornblende.c 647-727: vmixHrn, output *vmix *)
Definition Hrn_v0 :=
  Num (0#1).
(** sources/hornblende.c 647-727: vmixHrn, output dx[i] *)
Definition Hrn_v1 :=
  [Num (0#1);
    Num (0#1)].
(** sources/hornblende.c 647-727: vmixHrn, output dx2[i][j] *)
Definition Hrn_v2 :=
  [[Num (0#1);
    Num (0#1)];
    [Num (0#1);
    Num (0#1)]].
(** sources/hornblende.c 647-727: vmixHrn, output *dt *)
Definition Hrn_vt :=
  Num (0#1).
(** sources/hornblende.c 647-727: vmixHrn, output *dp *)
Definition Hrn_vp :=
  Num (0#1).
(** sources/hornblende.c 647-727: vmixHrn, output *dt2 *)
Definition Hrn_vtt :=
  Num (0#1).
(** sources/hornblende.c 647-727: vmixHrn, output *dtdp *)
Definition Hrn_vtp :=
  Num (0#1).
(** sources/hornblende.c 647-727: vmixHrn, output *dp2 *)
Definition Hrn_vpp :=
  Num (0#1).
(** sources/hornblende.c 647-727: vmixHrn, output dxdt[i] *)
Definition Hrn_v1t :=
  [Num (0#1);
    Num (0#1)].
(** sources/hornblende.c 647-727: vmixHrn, output dxdp[i] *)
Definition Hrn_v1p :=
  [Num (0#1);
    Num (0#1)].
(** sources/hornblende.c 416-504: actHrn, output mu[i] *)
Definition Hrn_mu :=
  [Num (702912#25) * Var 2 + Num (16780#1) * Var 3 + Num (-702912#25) * Var 2 * Var 2 + Num (-16780#1) * Var 3 * Var 3 - Var 0 * (Num (-83143#10000) * (Num (4#1) * (Num (1#1) - Var 2) * Log 0 + Num (4#1) * Var 2 * Log 1 + Var 3 * Log 2 + (Num (1#1) - Var 3) * Log 3)) + (- Var 2) * (Num (83143#10000) * Var 0 * (Num (4#1) * Log 1 - Num (4#1) * Log 0) + Num (702912#25) + Num (-1405824#25) * Var 2) + (- Var 3) * (Num (83143#10000) * Var 0 * (Log 2 - Log 3) + Num (16780#1) + Num (-33560#1) * Var 3);
    Num (702912#25) * Var 2 + Num (16780#1) * Var 3 + Num (-702912#25) * Var 2 * Var 2 + Num (-16780#1) * Var 3 * Var 3 - Var 0 * (Num (-83143#10000) * (Num (4#1) * (Num (1#1) - Var 2) * Log 0 + Num (4#1) * Var 2 * Log 1 + Var 3 * Log 2 + (Num (1#1) - Var 3) * Log 3)) + (Num (1#1) - Var 2) * (Num (83143#10000) * Var 0 * (Num (4#1) * Log 1 - Num (4#1) * Log 0) + Num (702912#25) + Num (-1405824#25) * Var 2) + (- Var 3) * (Num (83143#10000) * Var 0 * (Log 2 - Log 3) + Num (16780#1) + Num (-33560#1) * Var 3);
    Num (702912#25) * Var 2 + Num (16780#1) * Var 3 + Num (-702912#25) * Var 2 * Var 2 + Num (-16780#1) * Var 3 * Var 3 - Var 0 * (Num (-83143#10000) * (Num (4#1) * (Num (1#1) - Var 2) * Log 0 + Num (4#1) * Var 2 * Log 1 + Var 3 * Log 2 + (Num (1#1) - Var 3) * Log 3)) + (- Var 2) * (Num (83143#10000) * Var 0 * (Num (4#1) * Log 1 - Num (4#1) * Log 0) + Num (702912#25) + Num (-1405824#25) * Var 2) + (Num (1#1) - Var 3) * (Num (83143#10000) * Var 0 * (Log 2 - Log 3) + Num (16780#1) + Num (-33560#1) * Var 3)].
(** sources/hornblende.c 416-504: actHrn, output a[i] is exp of *)
Definition Hrn_aArg :=
  [(Num (702912#25) * Var 2 + Num (16780#1) * Var 3 + Num (-702912#25) * Var 2 * Var 2 + Num (-16780#1) * Var 3 * Var 3 - Var 0 * (Num (-83143#10000) * (Num (4#1) * (Num (1#1) - Var 2) * Log 0 + Num (4#1) * Var 2 * Log 1 + Var 3 * Log 2 + (Num (1#1) - Var 3) * Log 3)) + (- Var 2) * (Num (83143#10000) * Var 0 * (Num (4#1) * Log 1 - Num (4#1) * Log 0) + Num (702912#25) + Num (-1405824#25) * Var 2) + (- Var 3) * (Num (83143#10000) * Var 0 * (Log 2 - Log 3) + Num (16780#1) + Num (-33560#1) * Var 3)) / (Num (83143#10000) * Var 0);
    (Num (702912#25) * Var 2 + Num (16780#1) * Var 3 + Num (-702912#25) * Var 2 * Var 2 + Num (-16780#1) * Var 3 * Var 3 - Var 0 * (Num (-83143#10000) * (Num (4#1) * (Num (1#1) - Var 2) * Log 0 + Num (4#1) * Var 2 * Log 1 + Var 3 * Log 2 + (Num (1#1) - Var 3) * Log 3)) + (Num (1#1) - Var 2) * (Num (83143#10000) * Var 0 * (Num (4#1) * Log 1 - Num (4#1) * Log 0) + Num (702912#25) + Num (-1405824#25) * Var 2) + (- Var 3) * (Num (83143#10000) * Var 0 * (Log 2 - Log 3) + Num (16780#1) + Num (-33560#1) * Var 3)) / (Num (83143#10000) * Var 0);
    (Num (702912#25) * Var 2 + Num (16780#1) * Var 3 + Num (-702912#25) * Var 2 * Var 2 + Num (-16780#1) * Var 3 * Var 3 - Var 0 * (Num (-83143#10000) * (Num (4#1) * (Num (1#1) - Var 2) * Log 0 + Num (4#1) * Var 2 * Log 1 + Var 3 * Log 2 + (Num (1#1) - Var 3) * Log 3)) + (- Var 2) * (Num (83143#10000) * Var 0 * (Num (4#1) * Log 1 - Num (4#1) * Log 0) + Num (702912#25) + Num (-1405824#25) * Var 2) + (Num (1#1) - Var 3) * (Num (83143#10000) * Var 0 * (Log 2 - Log 3) + Num (16780#1) + Num (-33560#1) * Var 3)) / (Num (83143#10000) * Var 0)].
(** sources/hornblende.c 416-504: actHrn, output dx[i][k] is a[i] times *)
Definition Hrn_aDx :=
  [[(- Var 2) * (Num (83143#10000) * Var 0 * (Num (4#1) / Site 1 + Num (4#1) / Site 0) + Num (-1405824#25)) / (Num (83143#10000) * Var 0);
    (- Var 3) * (Num (83143#10000) * Var 0 * (Num (1#1) / Site 2 + Num (1#1) / Site 3) + Num (-33560#1)) / (Num (83143#10000) * Var 0)];
    [(Num (1#1) - Var 2) * (Num (83143#10000) * Var 0 * (Num (4#1) / Site 1 + Num (4#1) / Site 0) + Num (-1405824#25)) / (Num (83143#10000) * Var 0);
    (- Var 3) * (Num (83143#10000) * Var 0 * (Num (1#1) / Site 2 + Num (1#1) / Site 3) + Num (-33560#1)) / (Num (83143#10000) * Var 0)];
    [(- Var 2) * (Num (83143#10000) * Var 0 * (Num (4#1) / Site 1 + Num (4#1) / Site 0) + Num (-1405824#25)) / (Num (83143#10000) * Var 0);
    (Num (1#1) - Var 3) * (Num (83143#10000) * Var 0 * (Num (1#1) / Site 2 + Num (1#1) / Site 3) + Num (-33560#1)) / (Num (83143#10000) * Var 0)]].
(** the site fractions of sources/hornblende.c (first lines of each function); clamped: (x > DBL_EPSILON) ? x : DBL_EPSILON;
    unclamped: an argument of log or a denominator that the code does not guard *)
Definition Hrn_sites : list site :=
  [mkSite (Num (1#1) - Var 2) Free;
   mkSite (Var 2) Free;
   mkSite (Var 3) Free;
   mkSite (Num (1#1) - Var 3) Free].
Definition Hrn : phase :=
  mkPhase "hornblende" 3 2 conHrn Hrn_sites Hrn_g0 Hrn_g1 Hrn_g2 Hrn_g3 Hrn_h0 Hrn_s0 Hrn_s1 Hrn_s2 Hrn_c0 Hrn_ct Hrn_c1
    Hrn_v0 Hrn_v1 Hrn_v2 Hrn_vt Hrn_vp Hrn_vtt Hrn_vtp Hrn_vpp Hrn_v1t Hrn_v1p Hrn_mu Hrn_aArg Hrn_aDx.

(** sources/leucite.c 521-573: gmixLeu, output *gmix *)
Definition Leu_g0 :=
  Num (7000#1) * Var 2 + Num (7000#1) * Var 3 + Num (-7000#1) * Var 2 * Var 2 + Num (-7000#1) * Var 3 * Var 3 + Num (53000#1) * Var 2 * Var 3 - Var 0 * (Num (-83143#10000) * (Site 0 * Log 0 + Site 1 * Log 1 + Site 2 * Log 2 + Num (3#1) * Site 3 * Log 3 / Num (2#1) + Num (3#1) * Site 4 * Log 4 / Num (2#1) + Num (3#1) * Site 5 * Log 5 / Num (2#1) - Var 3 * (Num (3#2) * Log 6 + Num (1#2) * Log 7))).
(** sources/leucite.c 521-573: gmixLeu, output dx[i] *)
Definition Leu_g1 :=
  [Num (83143#10000) * Var 0 * ((Num (1#1) - Var 3) * Log 0 - (Num (1#1) - Var 3) * Log 1 + Var 3 * Log 3 - Var 3 * Log 4) + Num (7000#1) + Num (-14000#1) * Var 2 + Num (53000#1) * Var 3;
    Num (83143#10000) * Var 0 * ((- Var 2) * Log 0 - (Num (1#1) - Var 2) * Log 1 + Log 2 + Var 2 * Log 3 + (Num (1#1) - Var 2) * Log 4 - Log 5 - (Num (3#2) * Log 6 + Num (1#2) * Log 7)) + Num (7000#1) + Num (-14000#1) * Var 3 + Num (53000#1) * Var 2].
(** sources/leucite.c 521-573: gmixLeu, output dx2[i][j] *)
Definition Leu_g2 :=
  [[Num (83143#10000) * Var 0 * ((Num (1#1) - Var 3) * (Num (1#1) - Var 3) / Site 0 + (Num (1#1) - Var 3) * (Num (1#1) - Var 3) / Site 1 + Num (2#1) * Var 3 * Var 3 / (Num (3#1) * Site 3) + Num (2#1) * Var 3 * Var 3 / (Num (3#1) * Site 4)) + Num (-14000#1);
    Num (53000#1)];
    [Num (53000#1);
    Num (83143#10000) * Var 0 * (Var 2 * Var 2 / Site 0 + (Num (1#1) - Var 2) * (Num (1#1) - Var 2) / Site 1 + Num (1#1) / Site 2 + Num (2#1) * Var 2 * Var 2 / (Num (3#1) * Site 3) + Num (2#1) * (Num (1#1) - Var 2) * (Num (1#1) - Var 2) / (Num (3#1) * Site 4) + Num (2#1) / (Num (3#1) * Site 5)) + Num (-14000#1)]].
(** sources/leucite.c 521-573: gmixLeu, output dx3[i][j][k] *)
Definition Leu_g3 :=
  [[[Num (83143#10000) * Var 0 * ((- (Num (1#1) - Var 3)) * (Num (1#1) - Var 3) * (Num (1#1) - Var 3) / (Site 0 * Site 0) + (Num (1#1) - Var 3) * (Num (1#1) - Var 3) * (Num (1#1) - Var 3) / (Site 1 * Site 1) - Num (4#1) * Var 3 * Var 3 * Var 3 / (Num (9#1) * Site 3 * Site 3) + Num (4#1) * Var 3 * Var 3 * Var 3 / (Num (9#1) * Site 4 * Site 4));
    Num (0#1)];
    [Num (0#1);
    Num (0#1)]];
    [[Num (0#1);
    Num (0#1)];
    [Num (0#1);
    Num (83143#10000) * Var 0 * (Var 2 * Var 2 * Var 2 / (Site 0 * Site 0) + (Num (1#1) - Var 2) * (Num (1#1) - Var 2) * (Num (1#1) - Var 2) / (Site 1 * Site 1) - Num (1#1) / (Site 2 * Site 2) - Num (4#1) * Var 2 * Var 2 * Var 2 / (Num (9#1) * Site 3 * Site 3) - Num (4#1) * (Num (1#1) - Var 2) * (Num (1#1) - Var 2) * (Num (1#1) - Var 2) / (Num (9#1) * Site 4 * Site 4) + Num (4#1) / (Num (9#1) * Site 5 * Site 5))]]].
(** sources/leucite.c 576-589: hmixLeu, output *hmix *)
Definition Leu_h0 :=
  Num (7000#1) * Var 2 + Num (7000#1) * Var 3 + Num (-7000#1) * Var 2 * Var 2 + Num (-7000#1) * Var 3 * Var 3 + Num (53000#1) * Var 2 * Var 3 - Var 0 * (Num (-83143#10000) * (Site 0 * Log 0 + Site 1 * Log 1 + Site 2 * Log 2 + Num (3#1) * Site 3 * Log 3 / Num (2#1) + Num (3#1) * Site 4 * Log 4 / Num (2#1) + Num (3#1) * Site 5 * Log 5 / Num (2#1) - Var 3 * (Num (3#2) * Log 6 + Num (1#2) * Log 7))) + Var 0 * (Num (-83143#10000) * (Site 0 * Log 0 + Site 1 * Log 1 + Site 2 * Log 2 + Num (3#1) * Site 3 * Log 3 / Num (2#1) + Num (3#1) * Site 4 * Log 4 / Num (2#1) + Num (3#1) * Site 5 * Log 5 / Num (2#1) - Var 3 * (Num (3#2) * Log 6 + Num (1#2) * Log 7))).
(** sources/leucite.c 592-633: smixLeu, output *smix *)
Definition Leu_s0 :=
  Num (-83143#10000) * (Site 0 * Log 0 + Site 1 * Log 1 + Site 2 * Log 2 + Num (3#1) * Site 3 * Log 3 / Num (2#1) + Num (3#1) * Site 4 * Log 4 / Num (2#1) + Num (3#1) * Site 5 * Log 5 / Num (2#1) - Var 3 * (Num (3#2) * Log 6 + Num (1#2) * Log 7)).
(** sources/leucite.c 592-633: smixLeu, output dx[i] *)
Definition Leu_s1 :=
  [(- (Num (83143#10000) * ((Num (1#1) - Var 3) * Log 0 - (Num (1#1) - Var 3) * Log 1 + Var 3 * Log 3 - Var 3 * Log 4)));
    (- (Num (83143#10000) * ((- Var 2) * Log 0 - (Num (1#1) - Var 2) * Log 1 + Log 2 + Var 2 * Log 3 + (Num (1#1) - Var 2) * Log 4 - Log 5 - (Num (3#2) * Log 6 + Num (1#2) * Log 7))))].
(** sources/leucite.c 592-633: smixLeu, output dx2[i][j] *)
Definition Leu_s2 :=
  [[(- (Num (83143#10000) * ((Num (1#1) - Var 3) * (Num (1#1) - Var 3) / Site 0 + (Num (1#1) - Var 3) * (Num (1#1) - Var 3) / Site 1 + Num (2#1) * Var 3 * Var 3 / (Num (3#1) * Site 3) + Num (2#1) * Var 3 * Var 3 / (Num (3#1) * Site 4))));
    Num (0#1)];
    [Num (0#1);
    (- (Num (83143#10000) * (Var 2 * Var 2 / Site 0 + (Num (1#1) - Var 2) * (Num (1#1) - Var 2) / Site 1 + Num (1#1) / Site 2 + Num (2#1) * Var 2 * Var 2 / (Num (3#1) * Site 3) + Num (2#1) * (Num (1#1) - Var 2) * (Num (1#1) - Var 2) / (Num (3#1) * Site 4) + Num (2#1) / (Num (3#1) * Site 5))))]].
(** sources/leucite.c 636-664: cpmixLeu, output *cpmix *)
Definition Leu_c0 :=
  Num (0#1).
(** sources/leucite.c 636-664: cpmixLeu, output *dt *)
Definition Leu_ct :=
  Num (0#1).
(** sources/leucite.c 636-664: cpmixLeu, output dx[i] *)
Definition Leu_c1 :=
  [Num (0#1);
    Num (0#1)].
(** sources/leucite.c 667-747: vmixLeu, output *vmix *)
Definition Leu_v0 :=
  Num (0#1).
(** sources/leucite.c 667-747: vmixLeu, output dx[i] *)
Definition Leu_v1 :=
  [Num (0#1);
    Num (0#1)].
(** sources/leucite.c 667-747: vmixLeu, output dx2[i][j] *)
Definition Leu_v2 :=
  [[Num (0#1);
    Num (0#1)];
    [Num (0#1);
    Num (0#1)]].
(** sources/leucite.c 667-747: vmixLeu, output *dt *)
Definition Leu_vt :=
  Num (0#1).
(** sources/leucite.c 667-747: vmixLeu, output *dp *)
Definition Leu_vp :=
  Num (0#1).
(** sources/leucite.c 667-747: vmixLeu, output *dt2 *)
Definition Leu_vtt :=
  Num (0#1).
(** sources/leucite.c 667-747: vmixLeu, output *dtdp *)
Definition Leu_vtp :=
  Num (0#1).
(** sources/leucite.c 667-747: vmixLeu, output *dp2 *)
Definition Leu_vpp :=
  Num (0#1).
(** sources/leucite.c 667-747: vmixLeu, output dxdt[i] *)
Definition Leu_v1t :=
  [Num (0#1);
    Num (0#1)].
(** sources/leucite.c 667-747: vmixLeu, output dxdp[i] *)
Definition Leu_v1p :=
  [Num (0#1);
    Num (0#1)].
(** sources/leucite.c 428-518: actLeu, output mu[i] *)
Definition Leu_mu :=
  [Num (7000#1) * Var 2 + Num (7000#1) * Var 3 + Num (-7000#1) * Var 2 * Var 2 + Num (-7000#1) * Var 3 * Var 3 + Num (53000#1) * Var 2 * Var 3 - Var 0 * (Num (-83143#10000) * (Site 0 * Log 0 + Site 1 * Log 1 + Site 2 * Log 2 + Num (3#1) * Site 3 * Log 3 / Num (2#1) + Num (3#1) * Site 4 * Log 4 / Num (2#1) + Num (3#1) * Site 5 * Log 5 / Num (2#1) - Var 3 * (Num (3#2) * Log 6 + Num (1#2) * Log 7))) + (Num (1#1) - Var 2) * (Num (83143#10000) * Var 0 * ((Num (1#1) - Var 3) * Log 0 - (Num (1#1) - Var 3) * Log 1 + Var 3 * Log 3 - Var 3 * Log 4) + Num (7000#1) + Num (-14000#1) * Var 2 + Num (53000#1) * Var 3) + (- Var 3) * (Num (83143#10000) * Var 0 * ((- Var 2) * Log 0 - (Num (1#1) - Var 2) * Log 1 + Log 2 + Var 2 * Log 3 + (Num (1#1) - Var 2) * Log 4 - Log 5 - (Num (3#2) * Log 6 + Num (1#2) * Log 7)) + Num (7000#1) + Num (-14000#1) * Var 3 + Num (53000#1) * Var 2);
    Num (7000#1) * Var 2 + Num (7000#1) * Var 3 + Num (-7000#1) * Var 2 * Var 2 + Num (-7000#1) * Var 3 * Var 3 + Num (53000#1) * Var 2 * Var 3 - Var 0 * (Num (-83143#10000) * (Site 0 * Log 0 + Site 1 * Log 1 + Site 2 * Log 2 + Num (3#1) * Site 3 * Log 3 / Num (2#1) + Num (3#1) * Site 4 * Log 4 / Num (2#1) + Num (3#1) * Site 5 * Log 5 / Num (2#1) - Var 3 * (Num (3#2) * Log 6 + Num (1#2) * Log 7))) + (- Var 2) * (Num (83143#10000) * Var 0 * ((Num (1#1) - Var 3) * Log 0 - (Num (1#1) - Var 3) * Log 1 + Var 3 * Log 3 - Var 3 * Log 4) + Num (7000#1) + Num (-14000#1) * Var 2 + Num (53000#1) * Var 3) + (Num (1#1) - Var 3) * (Num (83143#10000) * Var 0 * ((- Var 2) * Log 0 - (Num (1#1) - Var 2) * Log 1 + Log 2 + Var 2 * Log 3 + (Num (1#1) - Var 2) * Log 4 - Log 5 - (Num (3#2) * Log 6 + Num (1#2) * Log 7)) + Num (7000#1) + Num (-14000#1) * Var 3 + Num (53000#1) * Var 2);
    Num (7000#1) * Var 2 + Num (7000#1) * Var 3 + Num (-7000#1) * Var 2 * Var 2 + Num (-7000#1) * Var 3 * Var 3 + Num (53000#1) * Var 2 * Var 3 - Var 0 * (Num (-83143#10000) * (Site 0 * Log 0 + Site 1 * Log 1 + Site 2 * Log 2 + Num (3#1) * Site 3 * Log 3 / Num (2#1) + Num (3#1) * Site 4 * Log 4 / Num (2#1) + Num (3#1) * Site 5 * Log 5 / Num (2#1) - Var 3 * (Num (3#2) * Log 6 + Num (1#2) * Log 7))) + (- Var 2) * (Num (83143#10000) * Var 0 * ((Num (1#1) - Var 3) * Log 0 - (Num (1#1) - Var 3) * Log 1 + Var 3 * Log 3 - Var 3 * Log 4) + Num (7000#1) + Num (-14000#1) * Var 2 + Num (53000#1) * Var 3) + (- Var 3) * (Num (83143#10000) * Var 0 * ((- Var 2) * Log 0 - (Num (1#1) - Var 2) * Log 1 + Log 2 + Var 2 * Log 3 + (Num (1#1) - Var 2) * Log 4 - Log 5 - (Num (3#2) * Log 6 + Num (1#2) * Log 7)) + Num (7000#1) + Num (-14000#1) * Var 3 + Num (53000#1) * Var 2)].
(** sources/leucite.c 428-518: actLeu, output a[i] is exp of *)
Definition Leu_aArg :=
  [(Num (7000#1) * Var 2 + Num (7000#1) * Var 3 + Num (-7000#1) * Var 2 * Var 2 + Num (-7000#1) * Var 3 * Var 3 + Num (53000#1) * Var 2 * Var 3 - Var 0 * (Num (-83143#10000) * (Site 0 * Log 0 + Site 1 * Log 1 + Site 2 * Log 2 + Num (3#1) * Site 3 * Log 3 / Num (2#1) + Num (3#1) * Site 4 * Log 4 / Num (2#1) + Num (3#1) * Site 5 * Log 5 / Num (2#1) - Var 3 * (Num (3#2) * Log 6 + Num (1#2) * Log 7))) + (Num (1#1) - Var 2) * (Num (83143#10000) * Var 0 * ((Num (1#1) - Var 3) * Log 0 - (Num (1#1) - Var 3) * Log 1 + Var 3 * Log 3 - Var 3 * Log 4) + Num (7000#1) + Num (-14000#1) * Var 2 + Num (53000#1) * Var 3) + (- Var 3) * (Num (83143#10000) * Var 0 * ((- Var 2) * Log 0 - (Num (1#1) - Var 2) * Log 1 + Log 2 + Var 2 * Log 3 + (Num (1#1) - Var 2) * Log 4 - Log 5 - (Num (3#2) * Log 6 + Num (1#2) * Log 7)) + Num (7000#1) + Num (-14000#1) * Var 3 + Num (53000#1) * Var 2)) / (Num (83143#10000) * Var 0);
    (Num (7000#1) * Var 2 + Num (7000#1) * Var 3 + Num (-7000#1) * Var 2 * Var 2 + Num (-7000#1) * Var 3 * Var 3 + Num (53000#1) * Var 2 * Var 3 - Var 0 * (Num (-83143#10000) * (Site 0 * Log 0 + Site 1 * Log 1 + Site 2 * Log 2 + Num (3#1) * Site 3 * Log 3 / Num (2#1) + Num (3#1) * Site 4 * Log 4 / Num (2#1) + Num (3#1) * Site 5 * Log 5 / Num (2#1) - Var 3 * (Num (3#2) * Log 6 + Num (1#2) * Log 7))) + (- Var 2) * (Num (83143#10000) * Var 0 * ((Num (1#1) - Var 3) * Log 0 - (Num (1#1) - Var 3) * Log 1 + Var 3 * Log 3 - Var 3 * Log 4) + Num (7000#1) + Num (-14000#1) * Var 2 + Num (53000#1) * Var 3) + (Num (1#1) - Var 3) * (Num (83143#10000) * Var 0 * ((- Var 2) * Log 0 - (Num (1#1) - Var 2) * Log 1 + Log 2 + Var 2 * Log 3 + (Num (1#1) - Var 2) * Log 4 - Log 5 - (Num (3#2) * Log 6 + Num (1#2) * Log 7)) + Num (7000#1) + Num (-14000#1) * Var 3 + Num (53000#1) * Var 2)) / (Num (83143#10000) * Var 0);
    (Num (7000#1) * Var 2 + Num (7000#1) * Var 3 + Num (-7000#1) * Var 2 * Var 2 + Num (-7000#1) * Var 3 * Var 3 + Num (53000#1) * Var 2 * Var 3 - Var 0 * (Num (-83143#10000) * (Site 0 * Log 0 + Site 1 * Log 1 + Site 2 * Log 2 + Num (3#1) * Site 3 * Log 3 / Num (2#1) + Num (3#1) * Site 4 * Log 4 / Num (2#1) + Num (3#1) * Site 5 * Log 5 / Num (2#1) - Var 3 * (Num (3#2) * Log 6 + Num (1#2) * Log 7))) + (- Var 2) * (Num (83143#10000) * Var 0 * ((Num (1#1) - Var 3) * Log 0 - (Num (1#1) - Var 3) * Log 1 + Var 3 * Log 3 - Var 3 * Log 4) + Num (7000#1) + Num (-14000#1) * Var 2 + Num (53000#1) * Var 3) + (- Var 3) * (Num (83143#10000) * Var 0 * ((- Var 2) * Log 0 - (Num (1#1) - Var 2) * Log 1 + Log 2 + Var 2 * Log 3 + (Num (1#1) - Var 2) * Log 4 - Log 5 - (Num (3#2) * Log 6 + Num (1#2) * Log 7)) + Num (7000#1) + Num (-14000#1) * Var 3 + Num (53000#1) * Var 2)) / (Num (83143#10000) * Var 0)].
(** sources/leucite.c 428-518: actLeu, output dx[i][k] is a[i] times *)
Definition Leu_aDx :=
  [[((Num (1#1) - Var 2) * (Num (83143#10000) * Var 0 * ((Num (1#1) - Var 3) * (Num (1#1) - Var 3) / Site 0 + (Num (1#1) - Var 3) * (Num (1#1) - Var 3) / Site 1 + Num (2#1) * Var 3 * Var 3 / (Num (3#1) * Site 3) + Num (2#1) * Var 3 * Var 3 / (Num (3#1) * Site 4)) + Num (-14000#1)) + (- Var 3) * Num (53000#1)) / (Num (83143#10000) * Var 0);
    ((Num (1#1) - Var 2) * Num (53000#1) + (- Var 3) * (Num (83143#10000) * Var 0 * (Var 2 * Var 2 / Site 0 + (Num (1#1) - Var 2) * (Num (1#1) - Var 2) / Site 1 + Num (1#1) / Site 2 + Num (2#1) * Var 2 * Var 2 / (Num (3#1) * Site 3) + Num (2#1) * (Num (1#1) - Var 2) * (Num (1#1) - Var 2) / (Num (3#1) * Site 4) + Num (2#1) / (Num (3#1) * Site 5)) + Num (-14000#1))) / (Num (83143#10000) * Var 0)];
    [((- Var 2) * (Num (83143#10000) * Var 0 * ((Num (1#1) - Var 3) * (Num (1#1) - Var 3) / Site 0 + (Num (1#1) - Var 3) * (Num (1#1) - Var 3) / Site 1 + Num (2#1) * Var 3 * Var 3 / (Num (3#1) * Site 3) + Num (2#1) * Var 3 * Var 3 / (Num (3#1) * Site 4)) + Num (-14000#1)) + (Num (1#1) - Var 3) * Num (53000#1)) / (Num (83143#10000) * Var 0);
    ((- Var 2) * Num (53000#1) + (Num (1#1) - Var 3) * (Num (83143#10000) * Var 0 * (Var 2 * Var 2 / Site 0 + (Num (1#1) - Var 2) * (Num (1#1) - Var 2) / Site 1 + Num (1#1) / Site 2 + Num (2#1) * Var 2 * Var 2 / (Num (3#1) * Site 3) + Num (2#1) * (Num (1#1) - Var 2) * (Num (1#1) - Var 2) / (Num (3#1) * Site 4) + Num (2#1) / (Num (3#1) * Site 5)) + Num (-14000#1))) / (Num (83143#10000) * Var 0)];
    [((- Var 2) * (Num (83143#10000) * Var 0 * ((Num (1#1) - Var 3) * (Num (1#1) - Var 3) / Site 0 + (Num (1#1) - Var 3) * (Num (1#1) - Var 3) / Site 1 + Num (2#1) * Var 3 * Var 3 / (Num (3#1) * Site 3) + Num (2#1) * Var 3 * Var 3 / (Num (3#1) * Site 4)) + Num (-14000#1)) + (- Var 3) * Num (53000#1)) / (Num (83143#10000) * Var 0);
    ((- Var 2) * Num (53000#1) + (- Var 3) * (Num (83143#10000) * Var 0 * (Var 2 * Var 2 / Site 0 + (Num (1#1) - Var 2) * (Num (1#1) - Var 2) / Site 1 + Num (1#1) / Site 2 + Num (2#1) * Var 2 * Var 2 / (Num (3#1) * Site 3) + Num (2#1) * (Num (1#1) - Var 2) * (Num (1#1) - Var 2) / (Num (3#1) * Site 4) + Num (2#1) / (Num (3#1) * Site 5)) + Num (-14000#1))) / (Num (83143#10000) * Var 0)]].
(** the site fractions of sources/leucite.c (first lines of each function); clamped: (x > DBL_EPSILON) ? x : DBL_EPSILON;
    unclamped: an argument of log or a denominator that the code does not guard *)
Definition Leu_sites : list site :=
  [mkSite (Var 2 * (Num (1#1) - Var 3)) Low;
   mkSite ((Num (1#1) - Var 2) * (Num (1#1) - Var 3)) Low;
   mkSite (Var 3) Low;
   mkSite (Num (2#1) * Var 2 * Var 3 / Num (3#1)) Low;
   mkSite (Num (2#1) * (Num (1#1) - Var 2) * Var 3 / Num (3#1)) Low;
   mkSite (Num (1#1) - Num (2#1) * Var 3 / Num (3#1)) Low;
   mkSite (Num (2#3)) Free;
   mkSite (Num (1#2)) Free].
Definition Leu : phase :=
  mkPhase "leucite" 3 2 conLeu Leu_sites Leu_g0 Leu_g1 Leu_g2 Leu_g3 Leu_h0 Leu_s0 Leu_s1 Leu_s2 Leu_c0 Leu_ct Leu_c1
    Leu_v0 Leu_v1 Leu_v2 Leu_vt Leu_vp Leu_vtt Leu_vtp Leu_vpp Leu_v1t Leu_v1p Leu_mu Leu_aArg Leu_aDx.

(** sources/majorite.c 722-778: gmixMaj, output *gmix *)
Definition Maj_g0 :=
  Num (249429#10000) * Var 0 * (Site 2 * Log 2 + Site 0 * Log 0 + Site 1 * Log 1) + Num (83143#5000) * Var 0 * (Site 3 * Log 3 + Num (1#2) * Site 4 * Log 4) + (Num (1#1) - Var 2 - Var 3 - Var 4) * Var 2 * (Num (45380#1) - Var 0 * Num (1879#100) + Var 1 * Num (1#10) + (Num (1#1) - Num (2#1) * Var 2 - Var 3 - Var 4) * Num (-23820#1)) + (Num (1#1) - Var 2 - Var 3 - Var 4) * Var 3 * (Num (11470#1) - Var 0 * Num (127#25) + Var 1 * Num (13#100) + (Num (1#1) - Var 2 - Num (2#1) * Var 3 - Var 4) * (Num (8850#1) + Var 1 * Num (1#25))) + Var 2 * Var 3 * (Num (1975#1) + Var 1 * Num (7#200) + (Var 2 - Var 3) * (Num (-1750#1) + Var 1 * Num (-1#40))).
(** sources/majorite.c 722-778: gmixMaj, output dx[i] *)
Definition Maj_g1 :=
  [Num (83143#10000) * Var 0 * (Num (-3#1) * Log 2 + Num (3#1) * Log 0) + (Num (1#1) - Num (2#1) * Var 2 - Var 3 - Var 4) * (Num (45380#1) - Var 0 * Num (1879#100) + Var 1 * Num (1#10) + (Num (1#1) - Num (2#1) * Var 2 - Var 3 - Var 4) * Num (-23820#1)) + (Num (1#1) - Var 2 - Var 3 - Var 4) * Var 2 * Num (47640#1) - Var 3 * (Num (11470#1) - Var 0 * Num (127#25) + Var 1 * Num (13#100) + (Num (1#1) - Var 2 - Num (2#1) * Var 3 - Var 4) * (Num (8850#1) + Var 1 * Num (1#25))) + (Num (1#1) - Var 2 - Var 3 - Var 4) * Var 3 * (- (Num (8850#1) + Var 1 * Num (1#25))) + Var 3 * (Num (1975#1) + Var 1 * Num (7#200) + (Var 2 - Var 3) * (Num (-1750#1) + Var 1 * Num (-1#40))) + Var 2 * Var 3 * (Num (-1750#1) + Var 1 * Num (-1#40));
    Num (83143#10000) * Var 0 * (Num (-3#1) * Log 2 + Num (3#1) * Log 1) - Var 2 * (Num (45380#1) - Var 0 * Num (1879#100) + Var 1 * Num (1#10) + (Num (1#1) - Num (2#1) * Var 2 - Var 3 - Var 4) * Num (-23820#1)) + (Num (1#1) - Var 2 - Var 3 - Var 4) * Var 2 * Num (23820#1) + (Num (1#1) - Var 2 - Num (2#1) * Var 3 - Var 4) * (Num (11470#1) - Var 0 * Num (127#25) + Var 1 * Num (13#100) + (Num (1#1) - Var 2 - Num (2#1) * Var 3 - Var 4) * (Num (8850#1) + Var 1 * Num (1#25))) + (Num (1#1) - Var 2 - Var 3 - Var 4) * Var 3 * (Num (-2#1) * (Num (8850#1) + Var 1 * Num (1#25))) + Var 2 * (Num (1975#1) + Var 1 * Num (7#200) + (Var 2 - Var 3) * (Num (-1750#1) + Var 1 * Num (-1#40))) + Var 2 * Var 3 * (- (Num (-1750#1) + Var 1 * Num (-1#40)));
    Num (83143#10000) * Var 0 * (Num (-3#1) * Log 2 + Num (3#1) * Log 0 + Log 3 - Log 4) - Var 2 * (Num (45380#1) - Var 0 * Num (1879#100) + Var 1 * Num (1#10) + (Num (1#1) - Num (2#1) * Var 2 - Var 3 - Var 4) * Num (-23820#1)) + (Num (1#1) - Var 2 - Var 3 - Var 4) * Var 2 * Num (23820#1) - Var 3 * (Num (11470#1) - Var 0 * Num (127#25) + Var 1 * Num (13#100) + (Num (1#1) - Var 2 - Num (2#1) * Var 3 - Var 4) * (Num (8850#1) + Var 1 * Num (1#25))) + (Num (1#1) - Var 2 - Var 3 - Var 4) * Var 3 * (- (Num (8850#1) + Var 1 * Num (1#25)))].
(** sources/majorite.c 722-778: gmixMaj, output dx2[i][j] *)
Definition Maj_g2 :=
  [[Num (83143#10000) * Var 0 * (Num (3#1) / Site 2 + Num (3#1) / Site 0) - Num (2#1) * (Num (45380#1) - Var 0 * Num (1879#100) + Var 1 * Num (1#10) + (Num (1#1) - Num (2#1) * Var 2 - Var 3 - Var 4) * Num (-23820#1)) + (Num (1#1) - Num (2#1) * Var 2 - Var 3 - Var 4) * Num (47640#1) + (Num (1#1) - Num (2#1) * Var 2 - Var 3 - Var 4) * Num (47640#1) - Var 3 * (- (Num (8850#1) + Var 1 * Num (1#25))) - Var 3 * (- (Num (8850#1) + Var 1 * Num (1#25))) + Var 3 * (Num (-1750#1) + Var 1 * Num (-1#40)) + Var 3 * (Num (-1750#1) + Var 1 * Num (-1#40));
    Num (83143#10000) * Var 0 * (Num (3#1) / Site 2) - (Num (45380#1) - Var 0 * Num (1879#100) + Var 1 * Num (1#10) + (Num (1#1) - Num (2#1) * Var 2 - Var 3 - Var 4) * Num (-23820#1)) + (Num (1#1) - Num (2#1) * Var 2 - Var 3 - Var 4) * Num (23820#1) - Var 2 * Num (47640#1) - (Num (11470#1) - Var 0 * Num (127#25) + Var 1 * Num (13#100) + (Num (1#1) - Var 2 - Num (2#1) * Var 3 - Var 4) * (Num (8850#1) + Var 1 * Num (1#25))) - Var 3 * (Num (-2#1) * (Num (8850#1) + Var 1 * Num (1#25))) - Var 3 * (- (Num (8850#1) + Var 1 * Num (1#25))) + (Num (1#1) - Var 2 - Var 3 - Var 4) * (- (Num (8850#1) + Var 1 * Num (1#25))) + (Num (1975#1) + Var 1 * Num (7#200) + (Var 2 - Var 3) * (Num (-1750#1) + Var 1 * Num (-1#40))) + Var 3 * (- (Num (-1750#1) + Var 1 * Num (-1#40))) + Var 2 * (Num (-1750#1) + Var 1 * Num (-1#40));
    Num (83143#10000) * Var 0 * (Num (3#1) / Site 2 + Num (3#1) / Site 0) - (Num (45380#1) - Var 0 * Num (1879#100) + Var 1 * Num (1#10) + (Num (1#1) - Num (2#1) * Var 2 - Var 3 - Var 4) * Num (-23820#1)) + (Num (1#1) - Num (2#1) * Var 2 - Var 3 - Var 4) * Num (23820#1) - Var 2 * Num (47640#1) - Var 3 * (- (Num (8850#1) + Var 1 * Num (1#25))) - Var 3 * (- (Num (8850#1) + Var 1 * Num (1#25)))];
    [Num (83143#10000) * Var 0 * (Num (3#1) / Site 2) - (Num (45380#1) - Var 0 * Num (1879#100) + Var 1 * Num (1#10) + (Num (1#1) - Num (2#1) * Var 2 - Var 3 - Var 4) * Num (-23820#1)) + (Num (1#1) - Num (2#1) * Var 2 - Var 3 - Var 4) * Num (23820#1) - Var 2 * Num (47640#1) - (Num (11470#1) - Var 0 * Num (127#25) + Var 1 * Num (13#100) + (Num (1#1) - Var 2 - Num (2#1) * Var 3 - Var 4) * (Num (8850#1) + Var 1 * Num (1#25))) - Var 3 * (Num (-2#1) * (Num (8850#1) + Var 1 * Num (1#25))) - Var 3 * (- (Num (8850#1) + Var 1 * Num (1#25))) + (Num (1#1) - Var 2 - Var 3 - Var 4) * (- (Num (8850#1) + Var 1 * Num (1#25))) + (Num (1975#1) + Var 1 * Num (7#200) + (Var 2 - Var 3) * (Num (-1750#1) + Var 1 * Num (-1#40))) + Var 3 * (- (Num (-1750#1) + Var 1 * Num (-1#40))) + Var 2 * (Num (-1750#1) + Var 1 * Num (-1#40));
    Num (83143#10000) * Var 0 * (Num (3#1) / Site 2 + Num (3#1) / Site 1) - Var 2 * Num (23820#1) - Var 2 * Num (23820#1) - Num (2#1) * (Num (11470#1) - Var 0 * Num (127#25) + Var 1 * Num (13#100) + (Num (1#1) - Var 2 - Num (2#1) * Var 3 - Var 4) * (Num (8850#1) + Var 1 * Num (1#25))) + (Num (1#1) - Var 2 - Num (2#1) * Var 3 - Var 4) * (Num (-2#1) * (Num (8850#1) + Var 1 * Num (1#25))) + (Num (1#1) - Var 2 - Num (2#1) * Var 3 - Var 4) * (Num (-2#1) * (Num (8850#1) + Var 1 * Num (1#25))) + Var 2 * (- (Num (-1750#1) + Var 1 * Num (-1#40))) + Var 2 * (- (Num (-1750#1) + Var 1 * Num (-1#40)));
    Num (83143#10000) * Var 0 * (Num (3#1) / Site 2) - Var 2 * Num (23820#1) - Var 2 * Num (23820#1) - (Num (11470#1) - Var 0 * Num (127#25) + Var 1 * Num (13#100) + (Num (1#1) - Var 2 - Num (2#1) * Var 3 - Var 4) * (Num (8850#1) + Var 1 * Num (1#25))) + (Num (1#1) - Var 2 - Num (2#1) * Var 3 - Var 4) * (- (Num (8850#1) + Var 1 * Num (1#25))) - Var 3 * (Num (-2#1) * (Num (8850#1) + Var 1 * Num (1#25)))];
    [Num (83143#10000) * Var 0 * (Num (3#1) / Site 2 + Num (3#1) / Site 0) - (Num (45380#1) - Var 0 * Num (1879#100) + Var 1 * Num (1#10) + (Num (1#1) - Num (2#1) * Var 2 - Var 3 - Var 4) * Num (-23820#1)) + (Num (1#1) - Num (2#1) * Var 2 - Var 3 - Var 4) * Num (23820#1) - Var 2 * Num (47640#1) - Var 3 * (- (Num (8850#1) + Var 1 * Num (1#25))) - Var 3 * (- (Num (8850#1) + Var 1 * Num (1#25)));
    Num (83143#10000) * Var 0 * (Num (3#1) / Site 2) - Var 2 * Num (23820#1) - Var 2 * Num (23820#1) - (Num (11470#1) - Var 0 * Num (127#25) + Var 1 * Num (13#100) + (Num (1#1) - Var 2 - Num (2#1) * Var 3 - Var 4) * (Num (8850#1) + Var 1 * Num (1#25))) + (Num (1#1) - Var 2 - Num (2#1) * Var 3 - Var 4) * (- (Num (8850#1) + Var 1 * Num (1#25))) - Var 3 * (Num (-2#1) * (Num (8850#1) + Var 1 * Num (1#25)));
    Num (83143#10000) * Var 0 * (Num (3#1) / Site 2 + Num (3#1) / Site 0 + Num (1#2) / Site 3 + Num (1#1) / Site 4) - Var 2 * Num (23820#1) - Var 2 * Num (23820#1) - Var 3 * (- (Num (8850#1) + Var 1 * Num (1#25))) - Var 3 * (- (Num (8850#1) + Var 1 * Num (1#25)))]].
(** sources/majorite.c 722-778: gmixMaj, output dx3[i][j][k] *)
Definition Maj_g3 :=
  [[[Num (83143#10000) * Var 0 * (Num (3#1) / (Site 2 * Site 2) - Num (3#1) / (Site 0 * Site 0)) - Num (95280#1) - Num (95280#1) - Num (95280#1);
    Num (83143#10000) * Var 0 * (Num (3#1) / (Site 2 * Site 2)) - Num (47640#1) - Num (47640#1) - Num (47640#1) - (- (Num (8850#1) + Var 1 * Num (1#25))) - (- (Num (8850#1) + Var 1 * Num (1#25))) + (Num (-1750#1) + Var 1 * Num (-1#40)) + (Num (-1750#1) + Var 1 * Num (-1#40));
    Num (83143#10000) * Var 0 * (Num (3#1) / (Site 2 * Site 2) - Num (3#1) / (Site 0 * Site 0)) - Num (47640#1) - Num (47640#1) - Num (47640#1)];
    [Num (83143#10000) * Var 0 * (Num (3#1) / (Site 2 * Site 2)) - Num (47640#1) - Num (47640#1) - Num (47640#1) - (- (Num (8850#1) + Var 1 * Num (1#25))) - (- (Num (8850#1) + Var 1 * Num (1#25))) + (Num (-1750#1) + Var 1 * Num (-1#40)) + (Num (-1750#1) + Var 1 * Num (-1#40));
    Num (83143#10000) * Var 0 * (Num (3#1) / (Site 2 * Site 2)) - Num (23820#1) - Num (23820#1) - Num (-2#1) * (Num (8850#1) + Var 1 * Num (1#25)) - Num (-2#1) * (Num (8850#1) + Var 1 * Num (1#25)) - (- (Num (8850#1) + Var 1 * Num (1#25))) - (- (Num (8850#1) + Var 1 * Num (1#25))) + (- (Num (-1750#1) + Var 1 * Num (-1#40))) + (- (Num (-1750#1) + Var 1 * Num (-1#40)));
    Num (83143#10000) * Var 0 * (Num (3#1) / (Site 2 * Site 2)) - Num (23820#1) - Num (23820#1) - (- (Num (8850#1) + Var 1 * Num (1#25))) - (- (Num (8850#1) + Var 1 * Num (1#25)))];
    [Num (83143#10000) * Var 0 * (Num (3#1) / (Site 2 * Site 2) - Num (3#1) / (Site 0 * Site 0)) - Num (47640#1) - Num (47640#1) - Num (47640#1);
    Num (83143#10000) * Var 0 * (Num (3#1) / (Site 2 * Site 2)) - Num (23820#1) - Num (23820#1) - (- (Num (8850#1) + Var 1 * Num (1#25))) - (- (Num (8850#1) + Var 1 * Num (1#25)));
    Num (83143#10000) * Var 0 * (Num (3#1) / (Site 2 * Site 2) - Num (3#1) / (Site 0 * Site 0)) - Num (23820#1) - Num (23820#1)]];
    [[Num (83143#10000) * Var 0 * (Num (3#1) / (Site 2 * Site 2)) - Num (47640#1) - Num (47640#1) - Num (47640#1) - (- (Num (8850#1) + Var 1 * Num (1#25))) - (- (Num (8850#1) + Var 1 * Num (1#25))) + (Num (-1750#1) + Var 1 * Num (-1#40)) + (Num (-1750#1) + Var 1 * Num (-1#40));
    Num (83143#10000) * Var 0 * (Num (3#1) / (Site 2 * Site 2)) - Num (23820#1) - Num (23820#1) - Num (-2#1) * (Num (8850#1) + Var 1 * Num (1#25)) - Num (-2#1) * (Num (8850#1) + Var 1 * Num (1#25)) - (- (Num (8850#1) + Var 1 * Num (1#25))) - (- (Num (8850#1) + Var 1 * Num (1#25))) + (- (Num (-1750#1) + Var 1 * Num (-1#40))) + (- (Num (-1750#1) + Var 1 * Num (-1#40)));
    Num (83143#10000) * Var 0 * (Num (3#1) / (Site 2 * Site 2)) - Num (23820#1) - Num (23820#1) - (- (Num (8850#1) + Var 1 * Num (1#25))) - (- (Num (8850#1) + Var 1 * Num (1#25)))];
    [Num (83143#10000) * Var 0 * (Num (3#1) / (Site 2 * Site 2)) - Num (23820#1) - Num (23820#1) - Num (-2#1) * (Num (8850#1) + Var 1 * Num (1#25)) - Num (-2#1) * (Num (8850#1) + Var 1 * Num (1#25)) - (- (Num (8850#1) + Var 1 * Num (1#25))) - (- (Num (8850#1) + Var 1 * Num (1#25))) + (- (Num (-1750#1) + Var 1 * Num (-1#40))) + (- (Num (-1750#1) + Var 1 * Num (-1#40)));
    Num (83143#10000) * Var 0 * (Num (3#1) / (Site 2 * Site 2) - Num (3#1) / (Site 1 * Site 1)) - Num (2#1) * (Num (-2#1) * (Num (8850#1) + Var 1 * Num (1#25))) - Num (2#1) * (Num (-2#1) * (Num (8850#1) + Var 1 * Num (1#25))) - Num (2#1) * (Num (-2#1) * (Num (8850#1) + Var 1 * Num (1#25)));
    Num (83143#10000) * Var 0 * (Num (3#1) / (Site 2 * Site 2)) - Num (2#1) * (- (Num (8850#1) + Var 1 * Num (1#25))) - Num (-2#1) * (Num (8850#1) + Var 1 * Num (1#25)) - Num (-2#1) * (Num (8850#1) + Var 1 * Num (1#25))];
    [Num (83143#10000) * Var 0 * (Num (3#1) / (Site 2 * Site 2)) - Num (23820#1) - Num (23820#1) - (- (Num (8850#1) + Var 1 * Num (1#25))) - (- (Num (8850#1) + Var 1 * Num (1#25)));
    Num (83143#10000) * Var 0 * (Num (3#1) / (Site 2 * Site 2)) - Num (2#1) * (- (Num (8850#1) + Var 1 * Num (1#25))) - Num (-2#1) * (Num (8850#1) + Var 1 * Num (1#25)) - Num (-2#1) * (Num (8850#1) + Var 1 * Num (1#25));
    Num (83143#10000) * Var 0 * (Num (3#1) / (Site 2 * Site 2)) + (Num (8850#1) + Var 1 * Num (1#25)) - (- (Num (8850#1) + Var 1 * Num (1#25)))]];
    [[Num (83143#10000) * Var 0 * (Num (3#1) / (Site 2 * Site 2) - Num (3#1) / (Site 0 * Site 0)) - Num (47640#1) - Num (47640#1) - Num (47640#1);
    Num (83143#10000) * Var 0 * (Num (3#1) / (Site 2 * Site 2)) - Num (23820#1) - Num (23820#1) - (- (Num (8850#1) + Var 1 * Num (1#25))) - (- (Num (8850#1) + Var 1 * Num (1#25)));
    Num (83143#10000) * Var 0 * (Num (3#1) / (Site 2 * Site 2) - Num (3#1) / (Site 0 * Site 0)) - Num (23820#1) - Num (23820#1)];
    [Num (83143#10000) * Var 0 * (Num (3#1) / (Site 2 * Site 2)) - Num (23820#1) - Num (23820#1) - (- (Num (8850#1) + Var 1 * Num (1#25))) - (- (Num (8850#1) + Var 1 * Num (1#25)));
    Num (83143#10000) * Var 0 * (Num (3#1) / (Site 2 * Site 2)) - Num (2#1) * (- (Num (8850#1) + Var 1 * Num (1#25))) - Num (-2#1) * (Num (8850#1) + Var 1 * Num (1#25)) - Num (-2#1) * (Num (8850#1) + Var 1 * Num (1#25));
    Num (83143#10000) * Var 0 * (Num (3#1) / (Site 2 * Site 2)) + (Num (8850#1) + Var 1 * Num (1#25)) - (- (Num (8850#1) + Var 1 * Num (1#25)))];
    [Num (83143#10000) * Var 0 * (Num (3#1) / (Site 2 * Site 2) - Num (3#1) / (Site 0 * Site 0)) - Num (23820#1) - Num (23820#1);
    Num (83143#10000) * Var 0 * (Num (3#1) / (Site 2 * Site 2)) + (Num (8850#1) + Var 1 * Num (1#25)) - (- (Num (8850#1) + Var 1 * Num (1#25)));
    Num (83143#10000) * Var 0 * (Num (3#1) / (Site 2 * Site 2) - Num (3#1) / (Site 0 * Site 0) - Num (1#4) / (Site 3 * Site 3) + Num (1#1) / (Site 4 * Site 4))]]].
(** sources/majorite.c 781-792: hmixMaj, output *hmix *)
Definition Maj_h0 :=
  Num (249429#10000) * Var 0 * (Site 2 * Log 2 + Site 0 * Log 0 + Site 1 * Log 1) + Num (83143#5000) * Var 0 * (Site 3 * Log 3 + Num (1#2) * Site 4 * Log 4) + (Num (1#1) - Var 2 - Var 3 - Var 4) * Var 2 * (Num (45380#1) - Var 0 * Num (1879#100) + Var 1 * Num (1#10) + (Num (1#1) - Num (2#1) * Var 2 - Var 3 - Var 4) * Num (-23820#1)) + (Num (1#1) - Var 2 - Var 3 - Var 4) * Var 3 * (Num (11470#1) - Var 0 * Num (127#25) + Var 1 * Num (13#100) + (Num (1#1) - Var 2 - Num (2#1) * Var 3 - Var 4) * (Num (8850#1) + Var 1 * Num (1#25))) + Var 2 * Var 3 * (Num (1975#1) + Var 1 * Num (7#200) + (Var 2 - Var 3) * (Num (-1750#1) + Var 1 * Num (-1#40))) + Var 0 * (Num (-249429#10000) * (Site 2 * Log 2 + Site 0 * Log 0 + Site 1 * Log 1) - Num (83143#5000) * (Site 3 * Log 3 + Num (1#2) * Site 4 * Log 4) + (Num (1#1) - Var 2 - Var 3 - Var 4) * Var 2 * Num (1879#100) + (Num (1#1) - Var 2 - Var 3 - Var 4) * Var 3 * Num (127#25)).
(** sources/majorite.c 795-835: smixMaj, output *smix *)
Definition Maj_s0 :=
  Num (-249429#10000) * (Site 2 * Log 2 + Site 0 * Log 0 + Site 1 * Log 1) - Num (83143#5000) * (Site 3 * Log 3 + Num (1#2) * Site 4 * Log 4) + (Num (1#1) - Var 2 - Var 3 - Var 4) * Var 2 * Num (1879#100) + (Num (1#1) - Var 2 - Var 3 - Var 4) * Var 3 * Num (127#25).
(** sources/majorite.c 795-835: smixMaj, output dx[i] *)
Definition Maj_s1 :=
  [(- (Num (83143#10000) * (Num (-3#1) * Log 2 + Num (3#1) * Log 0) - (Num (1#1) - Num (2#1) * Var 2 - Var 3 - Var 4) * Num (1879#100) + Var 3 * Num (127#25)));
    (- (Num (83143#10000) * (Num (-3#1) * Log 2 + Num (3#1) * Log 1) + Var 2 * Num (1879#100) + Var 3 * Num (127#25) - (Num (1#1) - Var 2 - Var 3 - Var 4) * Num (127#25)));
    (- (Num (83143#10000) * (Num (-3#1) * Log 2 + Num (3#1) * Log 0 + Log 3 - Log 4) + Var 2 * Num (1879#100) + Var 3 * Num (127#25)))].
(** sources/majorite.c 795-835: smixMaj, output dx2[i][j] *)
Definition Maj_s2 :=
  [[(- (Num (83143#10000) * (Num (3#1) / Site 2 + Num (3#1) / Site 0) + Num (1879#50)));
    (- (Num (83143#10000) * (Num (3#1) / Site 2) + Num (1879#100) + Num (127#25)));
    (- (Num (83143#10000) * (Num (3#1) / Site 2 + Num (3#1) / Site 0) + Num (1879#100)))];
    [(- (Num (83143#10000) * (Num (3#1) / Site 2) + Num (1879#100) + Num (127#25)));
    (- (Num (83143#10000) * (Num (3#1) / Site 2 + Num (3#1) / Site 1) + Num (127#25) + Num (127#25)));
    (- (Num (83143#10000) * (Num (3#1) / Site 2) + Num (127#25)))];
    [(- (Num (83143#10000) * (Num (3#1) / Site 2 + Num (3#1) / Site 0) + Num (1879#100)));
    (- (Num (83143#10000) * (Num (3#1) / Site 2) + Num (127#25)));
    (- (Num (83143#10000) * (Num (3#1) / Site 2 + Num (3#1) / Site 0 + Num (1#2) / Site 3 + Num (1#1) / Site 4)))]].
(** sources/majorite.c 838-869: cpmixMaj, output *cpmix *)
Definition Maj_c0 :=
  Num (0#1).
(** sources/majorite.c 838-869: cpmixMaj, output *dt *)
Definition Maj_ct :=
  Num (0#1).
(** sources/majorite.c 838-869: cpmixMaj, output dx[i] *)
Definition Maj_c1 :=
  [Num (0#1);
    Num (0#1);
    Num (0#1)].
(** sources/majorite.c 872-956: vmixMaj, output *vmix *)
Definition Maj_v0 :=
  (Num (1#1) - Var 2 - Var 3 - Var 4) * Var 2 * Num (1#10) + (Num (1#1) - Var 2 - Var 3 - Var 4) * Var 3 * (Num (13#100) + (Num (1#1) - Var 2 - Num (2#1) * Var 3 - Var 4) * Num (1#25)) + Var 2 * Var 3 * (Num (7#200) + (Var 2 - Var 3) * Num (-1#40)).
(** sources/majorite.c 872-956: vmixMaj, output dx[i] *)
Definition Maj_v1 :=
  [(Num (1#1) - Num (2#1) * Var 2 - Var 3 - Var 4) * Num (1#10) - Var 3 * (Num (13#100) + (Num (1#1) - Var 2 - Num (2#1) * Var 3 - Var 4) * Num (1#25)) + (Num (1#1) - Var 2 - Var 3 - Var 4) * Var 3 * Num (-1#25) + Var 3 * (Num (7#200) + (Var 2 - Var 3) * Num (-1#40)) + Var 2 * Var 3 * Num (-1#40);
    (- Var 2) * Num (1#10) + (Num (1#1) - Var 2 - Num (2#1) * Var 3 - Var 4) * (Num (13#100) + (Num (1#1) - Var 2 - Num (2#1) * Var 3 - Var 4) * Num (1#25)) + (Num (1#1) - Var 2 - Var 3 - Var 4) * Var 3 * Num (-2#25) + Var 2 * (Num (7#200) + (Var 2 - Var 3) * Num (-1#40)) + Var 2 * Var 3 * Num (1#40);
    (- Var 2) * Num (1#10) - Var 3 * (Num (13#100) + (Num (1#1) - Var 2 - Num (2#1) * Var 3 - Var 4) * Num (1#25)) + (Num (1#1) - Var 2 - Var 3 - Var 4) * Var 3 * Num (-1#25)].
(** sources/majorite.c 872-956: vmixMaj, output dx2[i][j] *)
Definition Maj_v2 :=
  [[Num (-1#5) - Var 3 * Num (-1#25) - Var 3 * Num (-1#25) + Var 3 * Num (-1#40) + Var 3 * Num (-1#40);
    Num (-1#10) - (Num (13#100) + (Num (1#1) - Var 2 - Num (2#1) * Var 3 - Var 4) * Num (1#25)) - Var 3 * Num (-2#25) - Var 3 * Num (-1#25) + (Num (1#1) - Var 2 - Var 3 - Var 4) * Num (-1#25) + (Num (7#200) + (Var 2 - Var 3) * Num (-1#40)) + Var 3 * Num (1#40) + Var 2 * Num (-1#40);
    Num (-1#10) - Var 3 * Num (-1#25) - Var 3 * Num (-1#25)];
    [Num (-1#10) - (Num (13#100) + (Num (1#1) - Var 2 - Num (2#1) * Var 3 - Var 4) * Num (1#25)) - Var 3 * Num (-2#25) - Var 3 * Num (-1#25) + (Num (1#1) - Var 2 - Var 3 - Var 4) * Num (-1#25) + (Num (7#200) + (Var 2 - Var 3) * Num (-1#40)) + Var 3 * Num (1#40) + Var 2 * Num (-1#40);
    (- (Num (2#1) * (Num (13#100) + (Num (1#1) - Var 2 - Num (2#1) * Var 3 - Var 4) * Num (1#25)))) + (Num (1#1) - Var 2 - Num (2#1) * Var 3 - Var 4) * Num (-2#25) + (Num (1#1) - Var 2 - Num (2#1) * Var 3 - Var 4) * Num (-2#25) + Var 2 * Num (1#40) + Var 2 * Num (1#40);
    (- (Num (13#100) + (Num (1#1) - Var 2 - Num (2#1) * Var 3 - Var 4) * Num (1#25))) + (Num (1#1) - Var 2 - Num (2#1) * Var 3 - Var 4) * Num (-1#25) - Var 3 * Num (-2#25)];
    [Num (-1#10) - Var 3 * Num (-1#25) - Var 3 * Num (-1#25);
    (- (Num (13#100) + (Num (1#1) - Var 2 - Num (2#1) * Var 3 - Var 4) * Num (1#25))) + (Num (1#1) - Var 2 - Num (2#1) * Var 3 - Var 4) * Num (-1#25) - Var 3 * Num (-2#25);
    (- (Var 3 * Num (-1#25))) - Var 3 * Num (-1#25)]].
(** sources/majorite.c 872-956: vmixMaj, output *dt *)
Definition Maj_vt :=
  Num (0#1).
(** sources/majorite.c 872-956: vmixMaj, output *dp *)
Definition Maj_vp :=
  Num (0#1).
(** sources/majorite.c 872-956: vmixMaj, output *dt2 *)
Definition Maj_vtt :=
  Num (0#1).
(** sources/majorite.c 872-956: vmixMaj, output *dtdp *)
Definition Maj_vtp :=
  Num (0#1).
(** sources/majorite.c 872-956: vmixMaj, output *dp2 *)
Definition Maj_vpp :=
  Num (0#1).
(** sources/majorite.c 872-956: vmixMaj, output dxdt[i] *)
Definition Maj_v1t :=
  [Num (0#1);
    Num (0#1);
    Num (0#1)].
(** sources/majorite.c 872-956: vmixMaj, output dxdp[i] *)
Definition Maj_v1p :=
  [Num (0#1);
    Num (0#1);
    Num (0#1)].
(** sources/majorite.c 632-719: actMaj, output mu[i] *)
Definition Maj_mu :=
  [Num (249429#10000) * Var 0 * (Site 2 * Log 2 + Site 0 * Log 0 + Site 1 * Log 1) + Num (83143#5000) * Var 0 * (Site 3 * Log 3 + Num (1#2) * Site 4 * Log 4) + (Num (1#1) - Var 2 - Var 3 - Var 4) * Var 2 * (Num (45380#1) - Var 0 * Num (1879#100) + Var 1 * Num (1#10) + (Num (1#1) - Num (2#1) * Var 2 - Var 3 - Var 4) * Num (-23820#1)) + (Num (1#1) - Var 2 - Var 3 - Var 4) * Var 3 * (Num (11470#1) - Var 0 * Num (127#25) + Var 1 * Num (13#100) + (Num (1#1) - Var 2 - Num (2#1) * Var 3 - Var 4) * (Num (8850#1) + Var 1 * Num (1#25))) + Var 2 * Var 3 * (Num (1975#1) + Var 1 * Num (7#200) + (Var 2 - Var 3) * (Num (-1750#1) + Var 1 * Num (-1#40))) + (- Var 2) * (Num (83143#10000) * Var 0 * (Num (-3#1) * Log 2 + Num (3#1) * Log 0) + (Num (1#1) - Num (2#1) * Var 2 - Var 3 - Var 4) * (Num (45380#1) - Var 0 * Num (1879#100) + Var 1 * Num (1#10) + (Num (1#1) - Num (2#1) * Var 2 - Var 3 - Var 4) * Num (-23820#1)) + (Num (1#1) - Var 2 - Var 3 - Var 4) * Var 2 * Num (47640#1) - Var 3 * (Num (11470#1) - Var 0 * Num (127#25) + Var 1 * Num (13#100) + (Num (1#1) - Var 2 - Num (2#1) * Var 3 - Var 4) * (Num (8850#1) + Var 1 * Num (1#25))) + (Num (1#1) - Var 2 - Var 3 - Var 4) * Var 3 * (- (Num (8850#1) + Var 1 * Num (1#25))) + Var 3 * (Num (1975#1) + Var 1 * Num (7#200) + (Var 2 - Var 3) * (Num (-1750#1) + Var 1 * Num (-1#40))) + Var 2 * Var 3 * (Num (-1750#1) + Var 1 * Num (-1#40))) + (- Var 3) * (Num (83143#10000) * Var 0 * (Num (-3#1) * Log 2 + Num (3#1) * Log 1) - Var 2 * (Num (45380#1) - Var 0 * Num (1879#100) + Var 1 * Num (1#10) + (Num (1#1) - Num (2#1) * Var 2 - Var 3 - Var 4) * Num (-23820#1)) + (Num (1#1) - Var 2 - Var 3 - Var 4) * Var 2 * Num (23820#1) + (Num (1#1) - Var 2 - Num (2#1) * Var 3 - Var 4) * (Num (11470#1) - Var 0 * Num (127#25) + Var 1 * Num (13#100) + (Num (1#1) - Var 2 - Num (2#1) * Var 3 - Var 4) * (Num (8850#1) + Var 1 * Num (1#25))) + (Num (1#1) - Var 2 - Var 3 - Var 4) * Var 3 * (Num (-2#1) * (Num (8850#1) + Var 1 * Num (1#25))) + Var 2 * (Num (1975#1) + Var 1 * Num (7#200) + (Var 2 - Var 3) * (Num (-1750#1) + Var 1 * Num (-1#40))) + Var 2 * Var 3 * (- (Num (-1750#1) + Var 1 * Num (-1#40)))) + (- Var 4) * (Num (83143#10000) * Var 0 * (Num (-3#1) * Log 2 + Num (3#1) * Log 0 + Log 3 - Log 4) - Var 2 * (Num (45380#1) - Var 0 * Num (1879#100) + Var 1 * Num (1#10) + (Num (1#1) - Num (2#1) * Var 2 - Var 3 - Var 4) * Num (-23820#1)) + (Num (1#1) - Var 2 - Var 3 - Var 4) * Var 2 * Num (23820#1) - Var 3 * (Num (11470#1) - Var 0 * Num (127#25) + Var 1 * Num (13#100) + (Num (1#1) - Var 2 - Num (2#1) * Var 3 - Var 4) * (Num (8850#1) + Var 1 * Num (1#25))) + (Num (1#1) - Var 2 - Var 3 - Var 4) * Var 3 * (- (Num (8850#1) + Var 1 * Num (1#25))));
    Num (249429#10000) * Var 0 * (Site 2 * Log 2 + Site 0 * Log 0 + Site 1 * Log 1) + Num (83143#5000) * Var 0 * (Site 3 * Log 3 + Num (1#2) * Site 4 * Log 4) + (Num (1#1) - Var 2 - Var 3 - Var 4) * Var 2 * (Num (45380#1) - Var 0 * Num (1879#100) + Var 1 * Num (1#10) + (Num (1#1) - Num (2#1) * Var 2 - Var 3 - Var 4) * Num (-23820#1)) + (Num (1#1) - Var 2 - Var 3 - Var 4) * Var 3 * (Num (11470#1) - Var 0 * Num (127#25) + Var 1 * Num (13#100) + (Num (1#1) - Var 2 - Num (2#1) * Var 3 - Var 4) * (Num (8850#1) + Var 1 * Num (1#25))) + Var 2 * Var 3 * (Num (1975#1) + Var 1 * Num (7#200) + (Var 2 - Var 3) * (Num (-1750#1) + Var 1 * Num (-1#40))) + (Num (1#1) - Var 2) * (Num (83143#10000) * Var 0 * (Num (-3#1) * Log 2 + Num (3#1) * Log 0) + (Num (1#1) - Num (2#1) * Var 2 - Var 3 - Var 4) * (Num (45380#1) - Var 0 * Num (1879#100) + Var 1 * Num (1#10) + (Num (1#1) - Num (2#1) * Var 2 - Var 3 - Var 4) * Num (-23820#1)) + (Num (1#1) - Var 2 - Var 3 - Var 4) * Var 2 * Num (47640#1) - Var 3 * (Num (11470#1) - Var 0 * Num (127#25) + Var 1 * Num (13#100) + (Num (1#1) - Var 2 - Num (2#1) * Var 3 - Var 4) * (Num (8850#1) + Var 1 * Num (1#25))) + (Num (1#1) - Var 2 - Var 3 - Var 4) * Var 3 * (- (Num (8850#1) + Var 1 * Num (1#25))) + Var 3 * (Num (1975#1) + Var 1 * Num (7#200) + (Var 2 - Var 3) * (Num (-1750#1) + Var 1 * Num (-1#40))) + Var 2 * Var 3 * (Num (-1750#1) + Var 1 * Num (-1#40))) + (- Var 3) * (Num (83143#10000) * Var 0 * (Num (-3#1) * Log 2 + Num (3#1) * Log 1) - Var 2 * (Num (45380#1) - Var 0 * Num (1879#100) + Var 1 * Num (1#10) + (Num (1#1) - Num (2#1) * Var 2 - Var 3 - Var 4) * Num (-23820#1)) + (Num (1#1) - Var 2 - Var 3 - Var 4) * Var 2 * Num (23820#1) + (Num (1#1) - Var 2 - Num (2#1) * Var 3 - Var 4) * (Num (11470#1) - Var 0 * Num (127#25) + Var 1 * Num (13#100) + (Num (1#1) - Var 2 - Num (2#1) * Var 3 - Var 4) * (Num (8850#1) + Var 1 * Num (1#25))) + (Num (1#1) - Var 2 - Var 3 - Var 4) * Var 3 * (Num (-2#1) * (Num (8850#1) + Var 1 * Num (1#25))) + Var 2 * (Num (1975#1) + Var 1 * Num (7#200) + (Var 2 - Var 3) * (Num (-1750#1) + Var 1 * Num (-1#40))) + Var 2 * Var 3 * (- (Num (-1750#1) + Var 1 * Num (-1#40)))) + (- Var 4) * (Num (83143#10000) * Var 0 * (Num (-3#1) * Log 2 + Num (3#1) * Log 0 + Log 3 - Log 4) - Var 2 * (Num (45380#1) - Var 0 * Num (1879#100) + Var 1 * Num (1#10) + (Num (1#1) - Num (2#1) * Var 2 - Var 3 - Var 4) * Num (-23820#1)) + (Num (1#1) - Var 2 - Var 3 - Var 4) * Var 2 * Num (23820#1) - Var 3 * (Num (11470#1) - Var 0 * Num (127#25) + Var 1 * Num (13#100) + (Num (1#1) - Var 2 - Num (2#1) * Var 3 - Var 4) * (Num (8850#1) + Var 1 * Num (1#25))) + (Num (1#1) - Var 2 - Var 3 - Var 4) * Var 3 * (- (Num (8850#1) + Var 1 * Num (1#25))));
    Num (249429#10000) * Var 0 * (Site 2 * Log 2 + Site 0 * Log 0 + Site 1 * Log 1) + Num (83143#5000) * Var 0 * (Site 3 * Log 3 + Num (1#2) * Site 4 * Log 4) + (Num (1#1) - Var 2 - Var 3 - Var 4) * Var 2 * (Num (45380#1) - Var 0 * Num (1879#100) + Var 1 * Num (1#10) + (Num (1#1) - Num (2#1) * Var 2 - Var 3 - Var 4) * Num (-23820#1)) + (Num (1#1) - Var 2 - Var 3 - Var 4) * Var 3 * (Num (11470#1) - Var 0 * Num (127#25) + Var 1 * Num (13#100) + (Num (1#1) - Var 2 - Num (2#1) * Var 3 - Var 4) * (Num (8850#1) + Var 1 * Num (1#25))) + Var 2 * Var 3 * (Num (1975#1) + Var 1 * Num (7#200) + (Var 2 - Var 3) * (Num (-1750#1) + Var 1 * Num (-1#40))) + (- Var 2) * (Num (83143#10000) * Var 0 * (Num (-3#1) * Log 2 + Num (3#1) * Log 0) + (Num (1#1) - Num (2#1) * Var 2 - Var 3 - Var 4) * (Num (45380#1) - Var 0 * Num (1879#100) + Var 1 * Num (1#10) + (Num (1#1) - Num (2#1) * Var 2 - Var 3 - Var 4) * Num (-23820#1)) + (Num (1#1) - Var 2 - Var 3 - Var 4) * Var 2 * Num (47640#1) - Var 3 * (Num (11470#1) - Var 0 * Num (127#25) + Var 1 * Num (13#100) + (Num (1#1) - Var 2 - Num (2#1) * Var 3 - Var 4) * (Num (8850#1) + Var 1 * Num (1#25))) + (Num (1#1) - Var 2 - Var 3 - Var 4) * Var 3 * (- (Num (8850#1) + Var 1 * Num (1#25))) + Var 3 * (Num (1975#1) + Var 1 * Num (7#200) + (Var 2 - Var 3) * (Num (-1750#1) + Var 1 * Num (-1#40))) + Var 2 * Var 3 * (Num (-1750#1) + Var 1 * Num (-1#40))) + (Num (1#1) - Var 3) * (Num (83143#10000) * Var 0 * (Num (-3#1) * Log 2 + Num (3#1) * Log 1) - Var 2 * (Num (45380#1) - Var 0 * Num (1879#100) + Var 1 * Num (1#10) + (Num (1#1) - Num (2#1) * Var 2 - Var 3 - Var 4) * Num (-23820#1)) + (Num (1#1) - Var 2 - Var 3 - Var 4) * Var 2 * Num (23820#1) + (Num (1#1) - Var 2 - Num (2#1) * Var 3 - Var 4) * (Num (11470#1) - Var 0 * Num (127#25) + Var 1 * Num (13#100) + (Num (1#1) - Var 2 - Num (2#1) * Var 3 - Var 4) * (Num (8850#1) + Var 1 * Num (1#25))) + (Num (1#1) - Var 2 - Var 3 - Var 4) * Var 3 * (Num (-2#1) * (Num (8850#1) + Var 1 * Num (1#25))) + Var 2 * (Num (1975#1) + Var 1 * Num (7#200) + (Var 2 - Var 3) * (Num (-1750#1) + Var 1 * Num (-1#40))) + Var 2 * Var 3 * (- (Num (-1750#1) + Var 1 * Num (-1#40)))) + (- Var 4) * (Num (83143#10000) * Var 0 * (Num (-3#1) * Log 2 + Num (3#1) * Log 0 + Log 3 - Log 4) - Var 2 * (Num (45380#1) - Var 0 * Num (1879#100) + Var 1 * Num (1#10) + (Num (1#1) - Num (2#1) * Var 2 - Var 3 - Var 4) * Num (-23820#1)) + (Num (1#1) - Var 2 - Var 3 - Var 4) * Var 2 * Num (23820#1) - Var 3 * (Num (11470#1) - Var 0 * Num (127#25) + Var 1 * Num (13#100) + (Num (1#1) - Var 2 - Num (2#1) * Var 3 - Var 4) * (Num (8850#1) + Var 1 * Num (1#25))) + (Num (1#1) - Var 2 - Var 3 - Var 4) * Var 3 * (- (Num (8850#1) + Var 1 * Num (1#25))));
    Num (249429#10000) * Var 0 * (Site 2 * Log 2 + Site 0 * Log 0 + Site 1 * Log 1) + Num (83143#5000) * Var 0 * (Site 3 * Log 3 + Num (1#2) * Site 4 * Log 4) + (Num (1#1) - Var 2 - Var 3 - Var 4) * Var 2 * (Num (45380#1) - Var 0 * Num (1879#100) + Var 1 * Num (1#10) + (Num (1#1) - Num (2#1) * Var 2 - Var 3 - Var 4) * Num (-23820#1)) + (Num (1#1) - Var 2 - Var 3 - Var 4) * Var 3 * (Num (11470#1) - Var 0 * Num (127#25) + Var 1 * Num (13#100) + (Num (1#1) - Var 2 - Num (2#1) * Var 3 - Var 4) * (Num (8850#1) + Var 1 * Num (1#25))) + Var 2 * Var 3 * (Num (1975#1) + Var 1 * Num (7#200) + (Var 2 - Var 3) * (Num (-1750#1) + Var 1 * Num (-1#40))) + (- Var 2) * (Num (83143#10000) * Var 0 * (Num (-3#1) * Log 2 + Num (3#1) * Log 0) + (Num (1#1) - Num (2#1) * Var 2 - Var 3 - Var 4) * (Num (45380#1) - Var 0 * Num (1879#100) + Var 1 * Num (1#10) + (Num (1#1) - Num (2#1) * Var 2 - Var 3 - Var 4) * Num (-23820#1)) + (Num (1#1) - Var 2 - Var 3 - Var 4) * Var 2 * Num (47640#1) - Var 3 * (Num (11470#1) - Var 0 * Num (127#25) + Var 1 * Num (13#100) + (Num (1#1) - Var 2 - Num (2#1) * Var 3 - Var 4) * (Num (8850#1) + Var 1 * Num (1#25))) + (Num (1#1) - Var 2 - Var 3 - Var 4) * Var 3 * (- (Num (8850#1) + Var 1 * Num (1#25))) + Var 3 * (Num (1975#1) + Var 1 * Num (7#200) + (Var 2 - Var 3) * (Num (-1750#1) + Var 1 * Num (-1#40))) + Var 2 * Var 3 * (Num (-1750#1) + Var 1 * Num (-1#40))) + (- Var 3) * (Num (83143#10000) * Var 0 * (Num (-3#1) * Log 2 + Num (3#1) * Log 1) - Var 2 * (Num (45380#1) - Var 0 * Num (1879#100) + Var 1 * Num (1#10) + (Num (1#1) - Num (2#1) * Var 2 - Var 3 - Var 4) * Num (-23820#1)) + (Num (1#1) - Var 2 - Var 3 - Var 4) * Var 2 * Num (23820#1) + (Num (1#1) - Var 2 - Num (2#1) * Var 3 - Var 4) * (Num (11470#1) - Var 0 * Num (127#25) + Var 1 * Num (13#100) + (Num (1#1) - Var 2 - Num (2#1) * Var 3 - Var 4) * (Num (8850#1) + Var 1 * Num (1#25))) + (Num (1#1) - Var 2 - Var 3 - Var 4) * Var 3 * (Num (-2#1) * (Num (8850#1) + Var 1 * Num (1#25))) + Var 2 * (Num (1975#1) + Var 1 * Num (7#200) + (Var 2 - Var 3) * (Num (-1750#1) + Var 1 * Num (-1#40))) + Var 2 * Var 3 * (- (Num (-1750#1) + Var 1 * Num (-1#40)))) + (Num (1#1) - Var 4) * (Num (83143#10000) * Var 0 * (Num (-3#1) * Log 2 + Num (3#1) * Log 0 + Log 3 - Log 4) - Var 2 * (Num (45380#1) - Var 0 * Num (1879#100) + Var 1 * Num (1#10) + (Num (1#1) - Num (2#1) * Var 2 - Var 3 - Var 4) * Num (-23820#1)) + (Num (1#1) - Var 2 - Var 3 - Var 4) * Var 2 * Num (23820#1) - Var 3 * (Num (11470#1) - Var 0 * Num (127#25) + Var 1 * Num (13#100) + (Num (1#1) - Var 2 - Num (2#1) * Var 3 - Var 4) * (Num (8850#1) + Var 1 * Num (1#25))) + (Num (1#1) - Var 2 - Var 3 - Var 4) * Var 3 * (- (Num (8850#1) + Var 1 * Num (1#25))))].
(** sources/majorite.c 632-719: actMaj, output a[i] is exp of *)
Definition Maj_aArg :=
  [(Num (249429#10000) * Var 0 * (Site 2 * Log 2 + Site 0 * Log 0 + Site 1 * Log 1) + Num (83143#5000) * Var 0 * (Site 3 * Log 3 + Num (1#2) * Site 4 * Log 4) + (Num (1#1) - Var 2 - Var 3 - Var 4) * Var 2 * (Num (45380#1) - Var 0 * Num (1879#100) + Var 1 * Num (1#10) + (Num (1#1) - Num (2#1) * Var 2 - Var 3 - Var 4) * Num (-23820#1)) + (Num (1#1) - Var 2 - Var 3 - Var 4) * Var 3 * (Num (11470#1) - Var 0 * Num (127#25) + Var 1 * Num (13#100) + (Num (1#1) - Var 2 - Num (2#1) * Var 3 - Var 4) * (Num (8850#1) + Var 1 * Num (1#25))) + Var 2 * Var 3 * (Num (1975#1) + Var 1 * Num (7#200) + (Var 2 - Var 3) * (Num (-1750#1) + Var 1 * Num (-1#40))) + (- Var 2) * (Num (83143#10000) * Var 0 * (Num (-3#1) * Log 2 + Num (3#1) * Log 0) + (Num (1#1) - Num (2#1) * Var 2 - Var 3 - Var 4) * (Num (45380#1) - Var 0 * Num (1879#100) + Var 1 * Num (1#10) + (Num (1#1) - Num (2#1) * Var 2 - Var 3 - Var 4) * Num (-23820#1)) + (Num (1#1) - Var 2 - Var 3 - Var 4) * Var 2 * Num (47640#1) - Var 3 * (Num (11470#1) - Var 0 * Num (127#25) + Var 1 * Num (13#100) + (Num (1#1) - Var 2 - Num (2#1) * Var 3 - Var 4) * (Num (8850#1) + Var 1 * Num (1#25))) + (Num (1#1) - Var 2 - Var 3 - Var 4) * Var 3 * (- (Num (8850#1) + Var 1 * Num (1#25))) + Var 3 * (Num (1975#1) + Var 1 * Num (7#200) + (Var 2 - Var 3) * (Num (-1750#1) + Var 1 * Num (-1#40))) + Var 2 * Var 3 * (Num (-1750#1) + Var 1 * Num (-1#40))) + (- Var 3) * (Num (83143#10000) * Var 0 * (Num (-3#1) * Log 2 + Num (3#1) * Log 1) - Var 2 * (Num (45380#1) - Var 0 * Num (1879#100) + Var 1 * Num (1#10) + (Num (1#1) - Num (2#1) * Var 2 - Var 3 - Var 4) * Num (-23820#1)) + (Num (1#1) - Var 2 - Var 3 - Var 4) * Var 2 * Num (23820#1) + (Num (1#1) - Var 2 - Num (2#1) * Var 3 - Var 4) * (Num (11470#1) - Var 0 * Num (127#25) + Var 1 * Num (13#100) + (Num (1#1) - Var 2 - Num (2#1) * Var 3 - Var 4) * (Num (8850#1) + Var 1 * Num (1#25))) + (Num (1#1) - Var 2 - Var 3 - Var 4) * Var 3 * (Num (-2#1) * (Num (8850#1) + Var 1 * Num (1#25))) + Var 2 * (Num (1975#1) + Var 1 * Num (7#200) + (Var 2 - Var 3) * (Num (-1750#1) + Var 1 * Num (-1#40))) + Var 2 * Var 3 * (- (Num (-1750#1) + Var 1 * Num (-1#40)))) + (- Var 4) * (Num (83143#10000) * Var 0 * (Num (-3#1) * Log 2 + Num (3#1) * Log 0 + Log 3 - Log 4) - Var 2 * (Num (45380#1) - Var 0 * Num (1879#100) + Var 1 * Num (1#10) + (Num (1#1) - Num (2#1) * Var 2 - Var 3 - Var 4) * Num (-23820#1)) + (Num (1#1) - Var 2 - Var 3 - Var 4) * Var 2 * Num (23820#1) - Var 3 * (Num (11470#1) - Var 0 * Num (127#25) + Var 1 * Num (13#100) + (Num (1#1) - Var 2 - Num (2#1) * Var 3 - Var 4) * (Num (8850#1) + Var 1 * Num (1#25))) + (Num (1#1) - Var 2 - Var 3 - Var 4) * Var 3 * (- (Num (8850#1) + Var 1 * Num (1#25))))) / (Num (83143#10000) * Var 0);
    (Num (249429#10000) * Var 0 * (Site 2 * Log 2 + Site 0 * Log 0 + Site 1 * Log 1) + Num (83143#5000) * Var 0 * (Site 3 * Log 3 + Num (1#2) * Site 4 * Log 4) + (Num (1#1) - Var 2 - Var 3 - Var 4) * Var 2 * (Num (45380#1) - Var 0 * Num (1879#100) + Var 1 * Num (1#10) + (Num (1#1) - Num (2#1) * Var 2 - Var 3 - Var 4) * Num (-23820#1)) + (Num (1#1) - Var 2 - Var 3 - Var 4) * Var 3 * (Num (11470#1) - Var 0 * Num (127#25) + Var 1 * Num (13#100) + (Num (1#1) - Var 2 - Num (2#1) * Var 3 - Var 4) * (Num (8850#1) + Var 1 * Num (1#25))) + Var 2 * Var 3 * (Num (1975#1) + Var 1 * Num (7#200) + (Var 2 - Var 3) * (Num (-1750#1) + Var 1 * Num (-1#40))) + (Num (1#1) - Var 2) * (Num (83143#10000) * Var 0 * (Num (-3#1) * Log 2 + Num (3#1) * Log 0) + (Num (1#1) - Num (2#1) * Var 2 - Var 3 - Var 4) * (Num (45380#1) - Var 0 * Num (1879#100) + Var 1 * Num (1#10) + (Num (1#1) - Num (2#1) * Var 2 - Var 3 - Var 4) * Num (-23820#1)) + (Num (1#1) - Var 2 - Var 3 - Var 4) * Var 2 * Num (47640#1) - Var 3 * (Num (11470#1) - Var 0 * Num (127#25) + Var 1 * Num (13#100) + (Num (1#1) - Var 2 - Num (2#1) * Var 3 - Var 4) * (Num (8850#1) + Var 1 * Num (1#25))) + (Num (1#1) - Var 2 - Var 3 - Var 4) * Var 3 * (- (Num (8850#1) + Var 1 * Num (1#25))) + Var 3 * (Num (1975#1) + Var 1 * Num (7#200) + (Var 2 - Var 3) * (Num (-1750#1) + Var 1 * Num (-1#40))) + Var 2 * Var 3 * (Num (-1750#1) + Var 1 * Num (-1#40))) + (- Var 3) * (Num (83143#10000) * Var 0 * (Num (-3#1) * Log 2 + Num (3#1) * Log 1) - Var 2 * (Num (45380#1) - Var 0 * Num (1879#100) + Var 1 * Num (1#10) + (Num (1#1) - Num (2#1) * Var 2 - Var 3 - Var 4) * Num (-23820#1)) + (Num (1#1) - Var 2 - Var 3 - Var 4) * Var 2 * Num (23820#1) + (Num (1#1) - Var 2 - Num (2#1) * Var 3 - Var 4) * (Num (11470#1) - Var 0 * Num (127#25) + Var 1 * Num (13#100) + (Num (1#1) - Var 2 - Num (2#1) * Var 3 - Var 4) * (Num (8850#1) + Var 1 * Num (1#25))) + (Num (1#1) - Var 2 - Var 3 - Var 4) * Var 3 * (Num (-2#1) * (Num (8850#1) + Var 1 * Num (1#25))) + Var 2 * (Num (1975#1) + Var 1 * Num (7#200) + (Var 2 - Var 3) * (Num (-1750#1) + Var 1 * Num (-1#40))) + Var 2 * Var 3 * (- (Num (-1750#1) + Var 1 * Num (-1#40)))) + (- Var 4) * (Num (83143#10000) * Var 0 * (Num (-3#1) * Log 2 + Num (3#1) * Log 0 + Log 3 - Log 4) - Var 2 * (Num (45380#1) - Var 0 * Num (1879#100) + Var 1 * Num (1#10) + (Num (1#1) - Num (2#1) * Var 2 - Var 3 - Var 4) * Num (-23820#1)) + (Num (1#1) - Var 2 - Var 3 - Var 4) * Var 2 * Num (23820#1) - Var 3 * (Num (11470#1) - Var 0 * Num (127#25) + Var 1 * Num (13#100) + (Num (1#1) - Var 2 - Num (2#1) * Var 3 - Var 4) * (Num (8850#1) + Var 1 * Num (1#25))) + (Num (1#1) - Var 2 - Var 3 - Var 4) * Var 3 * (- (Num (8850#1) + Var 1 * Num (1#25))))) / (Num (83143#10000) * Var 0);
    (Num (249429#10000) * Var 0 * (Site 2 * Log 2 + Site 0 * Log 0 + Site 1 * Log 1) + Num (83143#5000) * Var 0 * (Site 3 * Log 3 + Num (1#2) * Site 4 * Log 4) + (Num (1#1) - Var 2 - Var 3 - Var 4) * Var 2 * (Num (45380#1) - Var 0 * Num (1879#100) + Var 1 * Num (1#10) + (Num (1#1) - Num (2#1) * Var 2 - Var 3 - Var 4) * Num (-23820#1)) + (Num (1#1) - Var 2 - Var 3 - Var 4) * Var 3 * (Num (11470#1) - Var 0 * Num (127#25) + Var 1 * Num (13#100) + (Num (1#1) - Var 2 - Num (2#1) * Var 3 - Var 4) * (Num (8850#1) + Var 1 * Num (1#25))) + Var 2 * Var 3 * (Num (1975#1) + Var 1 * Num (7#200) + (Var 2 - Var 3) * (Num (-1750#1) + Var 1 * Num (-1#40))) + (- Var 2) * (Num (83143#10000) * Var 0 * (Num (-3#1) * Log 2 + Num (3#1) * Log 0) + (Num (1#1) - Num (2#1) * Var 2 - Var 3 - Var 4) * (Num (45380#1) - Var 0 * Num (1879#100) + Var 1 * Num (1#10) + (Num (1#1) - Num (2#1) * Var 2 - Var 3 - Var 4) * Num (-23820#1)) + (Num (1#1) - Var 2 - Var 3 - Var 4) * Var 2 * Num (47640#1) - Var 3 * (Num (11470#1) - Var 0 * Num (127#25) + Var 1 * Num (13#100) + (Num (1#1) - Var 2 - Num (2#1) * Var 3 - Var 4) * (Num (8850#1) + Var 1 * Num (1#25))) + (Num (1#1) - Var 2 - Var 3 - Var 4) * Var 3 * (- (Num (8850#1) + Var 1 * Num (1#25))) + Var 3 * (Num (1975#1) + Var 1 * Num (7#200) + (Var 2 - Var 3) * (Num (-1750#1) + Var 1 * Num (-1#40))) + Var 2 * Var 3 * (Num (-1750#1) + Var 1 * Num (-1#40))) + (Num (1#1) - Var 3) * (Num (83143#10000) * Var 0 * (Num (-3#1) * Log 2 + Num (3#1) * Log 1) - Var 2 * (Num (45380#1) - Var 0 * Num (1879#100) + Var 1 * Num (1#10) + (Num (1#1) - Num (2#1) * Var 2 - Var 3 - Var 4) * Num (-23820#1)) + (Num (1#1) - Var 2 - Var 3 - Var 4) * Var 2 * Num (23820#1) + (Num (1#1) - Var 2 - Num (2#1) * Var 3 - Var 4) * (Num (11470#1) - Var 0 * Num (127#25) + Var 1 * Num (13#100) + (Num (1#1) - Var 2 - Num (2#1) * Var 3 - Var 4) * (Num (8850#1) + Var 1 * Num (1#25))) + (Num (1#1) - Var 2 - Var 3 - Var 4) * Var 3 * (Num (-2#1) * (Num (8850#1) + Var 1 * Num (1#25))) + Var 2 * (Num (1975#1) + Var 1 * Num (7#200) + (Var 2 - Var 3) * (Num (-1750#1) + Var 1 * Num (-1#40))) + Var 2 * Var 3 * (- (Num (-1750#1) + Var 1 * Num (-1#40)))) + (- Var 4) * (Num (83143#10000) * Var 0 * (Num (-3#1) * Log 2 + Num (3#1) * Log 0 + Log 3 - Log 4) - Var 2 * (Num (45380#1) - Var 0 * Num (1879#100) + Var 1 * Num (1#10) + (Num (1#1) - Num (2#1) * Var 2 - Var 3 - Var 4) * Num (-23820#1)) + (Num (1#1) - Var 2 - Var 3 - Var 4) * Var 2 * Num (23820#1) - Var 3 * (Num (11470#1) - Var 0 * Num (127#25) + Var 1 * Num (13#100) + (Num (1#1) - Var 2 - Num (2#1) * Var 3 - Var 4) * (Num (8850#1) + Var 1 * Num (1#25))) + (Num (1#1) - Var 2 - Var 3 - Var 4) * Var 3 * (- (Num (8850#1) + Var 1 * Num (1#25))))) / (Num (83143#10000) * Var 0);
    (Num (249429#10000) * Var 0 * (Site 2 * Log 2 + Site 0 * Log 0 + Site 1 * Log 1) + Num (83143#5000) * Var 0 * (Site 3 * Log 3 + Num (1#2) * Site 4 * Log 4) + (Num (1#1) - Var 2 - Var 3 - Var 4) * Var 2 * (Num (45380#1) - Var 0 * Num (1879#100) + Var 1 * Num (1#10) + (Num (1#1) - Num (2#1) * Var 2 - Var 3 - Var 4) * Num (-23820#1)) + (Num (1#1) - Var 2 - Var 3 - Var 4) * Var 3 * (Num (11470#1) - Var 0 * Num (127#25) + Var 1 * Num (13#100) + (Num (1#1) - Var 2 - Num (2#1) * Var 3 - Var 4) * (Num (8850#1) + Var 1 * Num (1#25))) + Var 2 * Var 3 * (Num (1975#1) + Var 1 * Num (7#200) + (Var 2 - Var 3) * (Num (-1750#1) + Var 1 * Num (-1#40))) + (- Var 2) * (Num (83143#10000) * Var 0 * (Num (-3#1) * Log 2 + Num (3#1) * Log 0) + (Num (1#1) - Num (2#1) * Var 2 - Var 3 - Var 4) * (Num (45380#1) - Var 0 * Num (1879#100) + Var 1 * Num (1#10) + (Num (1#1) - Num (2#1) * Var 2 - Var 3 - Var 4) * Num (-23820#1)) + (Num (1#1) - Var 2 - Var 3 - Var 4) * Var 2 * Num (47640#1) - Var 3 * (Num (11470#1) - Var 0 * Num (127#25) + Var 1 * Num (13#100) + (Num (1#1) - Var 2 - Num (2#1) * Var 3 - Var 4) * (Num (8850#1) + Var 1 * Num (1#25))) + (Num (1#1) - Var 2 - Var 3 - Var 4) * Var 3 * (- (Num (8850#1) + Var 1 * Num (1#25))) + Var 3 * (Num (1975#1) + Var 1 * Num (7#200) + (Var 2 - Var 3) * (Num (-1750#1) + Var 1 * Num (-1#40))) + Var 2 * Var 3 * (Num (-1750#1) + Var 1 * Num (-1#40))) + (- Var 3) * (Num (83143#10000) * Var 0 * (Num (-3#1) * Log 2 + Num (3#1) * Log 1) - Var 2 * (Num (45380#1) - Var 0 * Num (1879#100) + Var 1 * Num (1#10) + (Num (1#1) - Num (2#1) * Var 2 - Var 3 - Var 4) * Num (-23820#1)) + (Num (1#1) - Var 2 - Var 3 - Var 4) * Var 2 * Num (23820#1) + (Num (1#1) - Var 2 - Num (2#1) * Var 3 - Var 4) * (Num (11470#1) - Var 0 * Num (127#25) + Var 1 * Num (13#100) + (Num (1#1) - Var 2 - Num (2#1) * Var 3 - Var 4) * (Num (8850#1) + Var 1 * Num (1#25))) + (Num (1#1) - Var 2 - Var 3 - Var 4) * Var 3 * (Num (-2#1) * (Num (8850#1) + Var 1 * Num (1#25))) + Var 2 * (Num (1975#1) + Var 1 * Num (7#200) + (Var 2 - Var 3) * (Num (-1750#1) + Var 1 * Num (-1#40))) + Var 2 * Var 3 * (- (Num (-1750#1) + Var 1 * Num (-1#40)))) + (Num (1#1) - Var 4) * (Num (83143#10000) * Var 0 * (Num (-3#1) * Log 2 + Num (3#1) * Log 0 + Log 3 - Log 4) - Var 2 * (Num (45380#1) - Var 0 * Num (1879#100) + Var 1 * Num (1#10) + (Num (1#1) - Num (2#1) * Var 2 - Var 3 - Var 4) * Num (-23820#1)) + (Num (1#1) - Var 2 - Var 3 - Var 4) * Var 2 * Num (23820#1) - Var 3 * (Num (11470#1) - Var 0 * Num (127#25) + Var 1 * Num (13#100) + (Num (1#1) - Var 2 - Num (2#1) * Var 3 - Var 4) * (Num (8850#1) + Var 1 * Num (1#25))) + (Num (1#1) - Var 2 - Var 3 - Var 4) * Var 3 * (- (Num (8850#1) + Var 1 * Num (1#25))))) / (Num (83143#10000) * Var 0)].
(** sources/majorite.c 632-719: actMaj, output dx[i][k] is a[i] times *)
Definition Maj_aDx :=
  [[((- Var 2) * (Num (83143#10000) * Var 0 * (Num (3#1) / Site 2 + Num (3#1) / Site 0) - Num (2#1) * (Num (45380#1) - Var 0 * Num (1879#100) + Var 1 * Num (1#10) + (Num (1#1) - Num (2#1) * Var 2 - Var 3 - Var 4) * Num (-23820#1)) + (Num (1#1) - Num (2#1) * Var 2 - Var 3 - Var 4) * Num (47640#1) + (Num (1#1) - Num (2#1) * Var 2 - Var 3 - Var 4) * Num (47640#1) - Var 3 * (- (Num (8850#1) + Var 1 * Num (1#25))) - Var 3 * (- (Num (8850#1) + Var 1 * Num (1#25))) + Var 3 * (Num (-1750#1) + Var 1 * Num (-1#40)) + Var 3 * (Num (-1750#1) + Var 1 * Num (-1#40))) + (- Var 3) * (Num (83143#10000) * Var 0 * (Num (3#1) / Site 2) - (Num (45380#1) - Var 0 * Num (1879#100) + Var 1 * Num (1#10) + (Num (1#1) - Num (2#1) * Var 2 - Var 3 - Var 4) * Num (-23820#1)) + (Num (1#1) - Num (2#1) * Var 2 - Var 3 - Var 4) * Num (23820#1) - Var 2 * Num (47640#1) - (Num (11470#1) - Var 0 * Num (127#25) + Var 1 * Num (13#100) + (Num (1#1) - Var 2 - Num (2#1) * Var 3 - Var 4) * (Num (8850#1) + Var 1 * Num (1#25))) - Var 3 * (Num (-2#1) * (Num (8850#1) + Var 1 * Num (1#25))) - Var 3 * (- (Num (8850#1) + Var 1 * Num (1#25))) + (Num (1#1) - Var 2 - Var 3 - Var 4) * (- (Num (8850#1) + Var 1 * Num (1#25))) + (Num (1975#1) + Var 1 * Num (7#200) + (Var 2 - Var 3) * (Num (-1750#1) + Var 1 * Num (-1#40))) + Var 3 * (- (Num (-1750#1) + Var 1 * Num (-1#40))) + Var 2 * (Num (-1750#1) + Var 1 * Num (-1#40))) + (- Var 4) * (Num (83143#10000) * Var 0 * (Num (3#1) / Site 2 + Num (3#1) / Site 0) - (Num (45380#1) - Var 0 * Num (1879#100) + Var 1 * Num (1#10) + (Num (1#1) - Num (2#1) * Var 2 - Var 3 - Var 4) * Num (-23820#1)) + (Num (1#1) - Num (2#1) * Var 2 - Var 3 - Var 4) * Num (23820#1) - Var 2 * Num (47640#1) - Var 3 * (- (Num (8850#1) + Var 1 * Num (1#25))) - Var 3 * (- (Num (8850#1) + Var 1 * Num (1#25))))) / (Num (83143#10000) * Var 0);
    ((- Var 2) * (Num (83143#10000) * Var 0 * (Num (3#1) / Site 2) - (Num (45380#1) - Var 0 * Num (1879#100) + Var 1 * Num (1#10) + (Num (1#1) - Num (2#1) * Var 2 - Var 3 - Var 4) * Num (-23820#1)) + (Num (1#1) - Num (2#1) * Var 2 - Var 3 - Var 4) * Num (23820#1) - Var 2 * Num (47640#1) - (Num (11470#1) - Var 0 * Num (127#25) + Var 1 * Num (13#100) + (Num (1#1) - Var 2 - Num (2#1) * Var 3 - Var 4) * (Num (8850#1) + Var 1 * Num (1#25))) - Var 3 * (Num (-2#1) * (Num (8850#1) + Var 1 * Num (1#25))) - Var 3 * (- (Num (8850#1) + Var 1 * Num (1#25))) + (Num (1#1) - Var 2 - Var 3 - Var 4) * (- (Num (8850#1) + Var 1 * Num (1#25))) + (Num (1975#1) + Var 1 * Num (7#200) + (Var 2 - Var 3) * (Num (-1750#1) + Var 1 * Num (-1#40))) + Var 3 * (- (Num (-1750#1) + Var 1 * Num (-1#40))) + Var 2 * (Num (-1750#1) + Var 1 * Num (-1#40))) + (- Var 3) * (Num (83143#10000) * Var 0 * (Num (3#1) / Site 2 + Num (3#1) / Site 1) - Var 2 * Num (23820#1) - Var 2 * Num (23820#1) - Num (2#1) * (Num (11470#1) - Var 0 * Num (127#25) + Var 1 * Num (13#100) + (Num (1#1) - Var 2 - Num (2#1) * Var 3 - Var 4) * (Num (8850#1) + Var 1 * Num (1#25))) + (Num (1#1) - Var 2 - Num (2#1) * Var 3 - Var 4) * (Num (-2#1) * (Num (8850#1) + Var 1 * Num (1#25))) + (Num (1#1) - Var 2 - Num (2#1) * Var 3 - Var 4) * (Num (-2#1) * (Num (8850#1) + Var 1 * Num (1#25))) + Var 2 * (- (Num (-1750#1) + Var 1 * Num (-1#40))) + Var 2 * (- (Num (-1750#1) + Var 1 * Num (-1#40)))) + (- Var 4) * (Num (83143#10000) * Var 0 * (Num (3#1) / Site 2) - Var 2 * Num (23820#1) - Var 2 * Num (23820#1) - (Num (11470#1) - Var 0 * Num (127#25) + Var 1 * Num (13#100) + (Num (1#1) - Var 2 - Num (2#1) * Var 3 - Var 4) * (Num (8850#1) + Var 1 * Num (1#25))) + (Num (1#1) - Var 2 - Num (2#1) * Var 3 - Var 4) * (- (Num (8850#1) + Var 1 * Num (1#25))) - Var 3 * (Num (-2#1) * (Num (8850#1) + Var 1 * Num (1#25))))) / (Num (83143#10000) * Var 0);
    ((- Var 2) * (Num (83143#10000) * Var 0 * (Num (3#1) / Site 2 + Num (3#1) / Site 0) - (Num (45380#1) - Var 0 * Num (1879#100) + Var 1 * Num (1#10) + (Num (1#1) - Num (2#1) * Var 2 - Var 3 - Var 4) * Num (-23820#1)) + (Num (1#1) - Num (2#1) * Var 2 - Var 3 - Var 4) * Num (23820#1) - Var 2 * Num (47640#1) - Var 3 * (- (Num (8850#1) + Var 1 * Num (1#25))) - Var 3 * (- (Num (8850#1) + Var 1 * Num (1#25)))) + (- Var 3) * (Num (83143#10000) * Var 0 * (Num (3#1) / Site 2) - Var 2 * Num (23820#1) - Var 2 * Num (23820#1) - (Num (11470#1) - Var 0 * Num (127#25) + Var 1 * Num (13#100) + (Num (1#1) - Var 2 - Num (2#1) * Var 3 - Var 4) * (Num (8850#1) + Var 1 * Num (1#25))) + (Num (1#1) - Var 2 - Num (2#1) * Var 3 - Var 4) * (- (Num (8850#1) + Var 1 * Num (1#25))) - Var 3 * (Num (-2#1) * (Num (8850#1) + Var 1 * Num (1#25)))) + (- Var 4) * (Num (83143#10000) * Var 0 * (Num (3#1) / Site 2 + Num (3#1) / Site 0 + Num (1#2) / Site 3 + Num (1#1) / Site 4) - Var 2 * Num (23820#1) - Var 2 * Num (23820#1) - Var 3 * (- (Num (8850#1) + Var 1 * Num (1#25))) - Var 3 * (- (Num (8850#1) + Var 1 * Num (1#25))))) / (Num (83143#10000) * Var 0)];
    [((Num (1#1) - Var 2) * (Num (83143#10000) * Var 0 * (Num (3#1) / Site 2 + Num (3#1) / Site 0) - Num (2#1) * (Num (45380#1) - Var 0 * Num (1879#100) + Var 1 * Num (1#10) + (Num (1#1) - Num (2#1) * Var 2 - Var 3 - Var 4) * Num (-23820#1)) + (Num (1#1) - Num (2#1) * Var 2 - Var 3 - Var 4) * Num (47640#1) + (Num (1#1) - Num (2#1) * Var 2 - Var 3 - Var 4) * Num (47640#1) - Var 3 * (- (Num (8850#1) + Var 1 * Num (1#25))) - Var 3 * (- (Num (8850#1) + Var 1 * Num (1#25))) + Var 3 * (Num (-1750#1) + Var 1 * Num (-1#40)) + Var 3 * (Num (-1750#1) + Var 1 * Num (-1#40))) + (- Var 3) * (Num (83143#10000) * Var 0 * (Num (3#1) / Site 2) - (Num (45380#1) - Var 0 * Num (1879#100) + Var 1 * Num (1#10) + (Num (1#1) - Num (2#1) * Var 2 - Var 3 - Var 4) * Num (-23820#1)) + (Num (1#1) - Num (2#1) * Var 2 - Var 3 - Var 4) * Num (23820#1) - Var 2 * Num (47640#1) - (Num (11470#1) - Var 0 * Num (127#25) + Var 1 * Num (13#100) + (Num (1#1) - Var 2 - Num (2#1) * Var 3 - Var 4) * (Num (8850#1) + Var 1 * Num (1#25))) - Var 3 * (Num (-2#1) * (Num (8850#1) + Var 1 * Num (1#25))) - Var 3 * (- (Num (8850#1) + Var 1 * Num (1#25))) + (Num (1#1) - Var 2 - Var 3 - Var 4) * (- (Num (8850#1) + Var 1 * Num (1#25))) + (Num (1975#1) + Var 1 * Num (7#200) + (Var 2 - Var 3) * (Num (-1750#1) + Var 1 * Num (-1#40))) + Var 3 * (- (Num (-1750#1) + Var 1 * Num (-1#40))) + Var 2 * (Num (-1750#1) + Var 1 * Num (-1#40))) + (- Var 4) * (Num (83143#10000) * Var 0 * (Num (3#1) / Site 2 + Num (3#1) / Site 0) - (Num (45380#1) - Var 0 * Num (1879#100) + Var 1 * Num (1#10) + (Num (1#1) - Num (2#1) * Var 2 - Var 3 - Var 4) * Num (-23820#1)) + (Num (1#1) - Num (2#1) * Var 2 - Var 3 - Var 4) * Num (23820#1) - Var 2 * Num (47640#1) - Var 3 * (- (Num (8850#1) + Var 1 * Num (1#25))) - Var 3 * (- (Num (8850#1) + Var 1 * Num (1#25))))) / (Num (83143#10000) * Var 0);
    ((Num (1#1) - Var 2) * (Num (83143#10000) * Var 0 * (Num (3#1) / Site 2) - (Num (45380#1) - Var 0 * Num (1879#100) + Var 1 * Num (1#10) + (Num (1#1) - Num (2#1) * Var 2 - Var 3 - Var 4) * Num (-23820#1)) + (Num (1#1) - Num (2#1) * Var 2 - Var 3 - Var 4) * Num (23820#1) - Var 2 * Num (47640#1) - (Num (11470#1) - Var 0 * Num (127#25) + Var 1 * Num (13#100) + (Num (1#1) - Var 2 - Num (2#1) * Var 3 - Var 4) * (Num (8850#1) + Var 1 * Num (1#25))) - Var 3 * (Num (-2#1) * (Num (8850#1) + Var 1 * Num (1#25))) - Var 3 * (- (Num (8850#1) + Var 1 * Num (1#25))) + (Num (1#1) - Var 2 - Var 3 - Var 4) * (- (Num (8850#1) + Var 1 * Num (1#25))) + (Num (1975#1) + Var 1 * Num (7#200) + (Var 2 - Var 3) * (Num (-1750#1) + Var 1 * Num (-1#40))) + Var 3 * (- (Num (-1750#1) + Var 1 * Num (-1#40))) + Var 2 * (Num (-1750#1) + Var 1 * Num (-1#40))) + (- Var 3) * (Num (83143#10000) * Var 0 * (Num (3#1) / Site 2 + Num (3#1) / Site 1) - Var 2 * Num (23820#1) - Var 2 * Num (23820#1) - Num (2#1) * (Num (11470#1) - Var 0 * Num (127#25) + Var 1 * Num (13#100) + (Num (1#1) - Var 2 - Num (2#1) * Var 3 - Var 4) * (Num (8850#1) + Var 1 * Num (1#25))) + (Num (1#1) - Var 2 - Num (2#1) * Var 3 - Var 4) * (Num (-2#1) * (Num (8850#1) + Var 1 * Num (1#25))) + (Num (1#1) - Var 2 - Num (2#1) * Var 3 - Var 4) * (Num (-2#1) * (Num (8850#1) + Var 1 * Num (1#25))) + Var 2 * (- (Num (-1750#1) + Var 1 * Num (-1#40))) + Var 2 * (- (Num (-1750#1) + Var 1 * Num (-1#40)))) + (- Var 4) * (Num (83143#10000) * Var 0 * (Num (3#1) / Site 2) - Var 2 * Num (23820#1) - Var 2 * Num (23820#1) - (Num (11470#1) - Var 0 * Num (127#25) + Var 1 * Num (13#100) + (Num (1#1) - Var 2 - Num (2#1) * Var 3 - Var 4) * (Num (8850#1) + Var 1 * Num (1#25))) + (Num (1#1) - Var 2 - Num (2#1) * Var 3 - Var 4) * (- (Num (8850#1) + Var 1 * Num (1#25))) - Var 3 * (Num (-2#1) * (Num (8850#1) + Var 1 * Num (1#25))))) / (Num (83143#10000) * Var 0);
    ((Num (1#1) - Var 2) * (Num (83143#10000) * Var 0 * (Num (3#1) / Site 2 + Num (3#1) / Site 0) - (Num (45380#1) - Var 0 * Num (1879#100) + Var 1 * Num (1#10) + (Num (1#1) - Num (2#1) * Var 2 - Var 3 - Var 4) * Num (-23820#1)) + (Num (1#1) - Num (2#1) * Var 2 - Var 3 - Var 4) * Num (23820#1) - Var 2 * Num (47640#1) - Var 3 * (- (Num (8850#1) + Var 1 * Num (1#25))) - Var 3 * (- (Num (8850#1) + Var 1 * Num (1#25)))) + (- Var 3) * (Num (83143#10000) * Var 0 * (Num (3#1) / Site 2) - Var 2 * Num (23820#1) - Var 2 * Num (23820#1) - (Num (11470#1) - Var 0 * Num (127#25) + Var 1 * Num (13#100) + (Num (1#1) - Var 2 - Num (2#1) * Var 3 - Var 4) * (Num (8850#1) + Var 1 * Num (1#25))) + (Num (1#1) - Var 2 - Num (2#1) * Var 3 - Var 4) * (- (Num (8850#1) + Var 1 * Num (1#25))) - Var 3 * (Num (-2#1) * (Num (8850#1) + Var 1 * Num (1#25)))) + (- Var 4) * (Num (83143#10000) * Var 0 * (Num (3#1) / Site 2 + Num (3#1) / Site 0 + Num (1#2) / Site 3 + Num (1#1) / Site 4) - Var 2 * Num (23820#1) - Var 2 * Num (23820#1) - Var 3 * (- (Num (8850#1) + Var 1 * Num (1#25))) - Var 3 * (- (Num (8850#1) + Var 1 * Num (1#25))))) / (Num (83143#10000) * Var 0)];
    [((- Var 2) * (Num (83143#10000) * Var 0 * (Num (3#1) / Site 2 + Num (3#1) / Site 0) - Num (2#1) * (Num (45380#1) - Var 0 * Num (1879#100) + Var 1 * Num (1#10) + (Num (1#1) - Num (2#1) * Var 2 - Var 3 - Var 4) * Num (-23820#1)) + (Num (1#1) - Num (2#1) * Var 2 - Var 3 - Var 4) * Num (47640#1) + (Num (1#1) - Num (2#1) * Var 2 - Var 3 - Var 4) * Num (47640#1) - Var 3 * (- (Num (8850#1) + Var 1 * Num (1#25))) - Var 3 * (- (Num (8850#1) + Var 1 * Num (1#25))) + Var 3 * (Num (-1750#1) + Var 1 * Num (-1#40)) + Var 3 * (Num (-1750#1) + Var 1 * Num (-1#40))) + (Num (1#1) - Var 3) * (Num (83143#10000) * Var 0 * (Num (3#1) / Site 2) - (Num (45380#1) - Var 0 * Num (1879#100) + Var 1 * Num (1#10) + (Num (1#1) - Num (2#1) * Var 2 - Var 3 - Var 4) * Num (-23820#1)) + (Num (1#1) - Num (2#1) * Var 2 - Var 3 - Var 4) * Num (23820#1) - Var 2 * Num (47640#1) - (Num (11470#1) - Var 0 * Num (127#25) + Var 1 * Num (13#100) + (Num (1#1) - Var 2 - Num (2#1) * Var 3 - Var 4) * (Num (8850#1) + Var 1 * Num (1#25))) - Var 3 * (Num (-2#1) * (Num (8850#1) + Var 1 * Num (1#25))) - Var 3 * (- (Num (8850#1) + Var 1 * Num (1#25))) + (Num (1#1) - Var 2 - Var 3 - Var 4) * (- (Num (8850#1) + Var 1 * Num (1#25))) + (Num (1975#1) + Var 1 * Num (7#200) + (Var 2 - Var 3) * (Num (-1750#1) + Var 1 * Num (-1#40))) + Var 3 * (- (Num (-1750#1) + Var 1 * Num (-1#40))) + Var 2 * (Num (-1750#1) + Var 1 * Num (-1#40))) + (- Var 4) * (Num (83143#10000) * Var 0 * (Num (3#1) / Site 2 + Num (3#1) / Site 0) - (Num (45380#1) - Var 0 * Num (1879#100) + Var 1 * Num (1#10) + (Num (1#1) - Num (2#1) * Var 2 - Var 3 - Var 4) * Num (-23820#1)) + (Num (1#1) - Num (2#1) * Var 2 - Var 3 - Var 4) * Num (23820#1) - Var 2 * Num (47640#1) - Var 3 * (- (Num (8850#1) + Var 1 * Num (1#25))) - Var 3 * (- (Num (8850#1) + Var 1 * Num (1#25))))) / (Num (83143#10000) * Var 0);
    ((- Var 2) * (Num (83143#10000) * Var 0 * (Num (3#1) / Site 2) - (Num (45380#1) - Var 0 * Num (1879#100) + Var 1 * Num (1#10) + (Num (1#1) - Num (2#1) * Var 2 - Var 3 - Var 4) * Num (-23820#1)) + (Num (1#1) - Num (2#1) * Var 2 - Var 3 - Var 4) * Num (23820#1) - Var 2 * Num (47640#1) - (Num (11470#1) - Var 0 * Num (127#25) + Var 1 * Num (13#100) + (Num (1#1) - Var 2 - Num (2#1) * Var 3 - Var 4) * (Num (8850#1) + Var 1 * Num (1#25))) - Var 3 * (Num (-2#1) * (Num (8850#1) + Var 1 * Num (1#25))) - Var 3 * (- (Num (8850#1) + Var 1 * Num (1#25))) + (Num (1#1) - Var 2 - Var 3 - Var 4) * (- (Num (8850#1) + Var 1 * Num (1#25))) + (Num (1975#1) + Var 1 * Num (7#200) + (Var 2 - Var 3) * (Num (-1750#1) + Var 1 * Num (-1#40))) + Var 3 * (- (Num (-1750#1) + Var 1 * Num (-1#40))) + Var 2 * (Num (-1750#1) + Var 1 * Num (-1#40))) + (Num (1#1) - Var 3) * (Num (83143#10000) * Var 0 * (Num (3#1) / Site 2 + Num (3#1) / Site 1) - Var 2 * Num (23820#1) - Var 2 * Num (23820#1) - Num (2#1) * (Num (11470#1) - Var 0 * Num (127#25) + Var 1 * Num (13#100) + (Num (1#1) - Var 2 - Num (2#1) * Var 3 - Var 4) * (Num (8850#1) + Var 1 * Num (1#25))) + (Num (1#1) - Var 2 - Num (2#1) * Var 3 - Var 4) * (Num (-2#1) * (Num (8850#1) + Var 1 * Num (1#25))) + (Num (1#1) - Var 2 - Num (2#1) * Var 3 - Var 4) * (Num (-2#1) * (Num (8850#1) + Var 1 * Num (1#25))) + Var 2 * (- (Num (-1750#1) + Var 1 * Num (-1#40))) + Var 2 * (- (Num (-1750#1) + Var 1 * Num (-1#40)))) + (- Var 4) * (Num (83143#10000) * Var 0 * (Num (3#1) / Site 2) - Var 2 * Num (23820#1) - Var 2 * Num (23820#1) - (Num (11470#1) - Var 0 * Num (127#25) + Var 1 * Num (13#100) + (Num (1#1) - Var 2 - Num (2#1) * Var 3 - Var 4) * (Num (8850#1) + Var 1 * Num (1#25))) + (Num (1#1) - Var 2 - Num (2#1) * Var 3 - Var 4) * (- (Num (8850#1) + Var 1 * Num (1#25))) - Var 3 * (Num (-2#1) * (Num (8850#1) + Var 1 * Num (1#25))))) / (Num (83143#10000) * Var 0);
    ((- Var 2) * (Num (83143#10000) * Var 0 * (Num (3#1) / Site 2 + Num (3#1) / Site 0) - (Num (45380#1) - Var 0 * Num (1879#100) + Var 1 * Num (1#10) + (Num (1#1) - Num (2#1) * Var 2 - Var 3 - Var 4) * Num (-23820#1)) + (Num (1#1) - Num (2#1) * Var 2 - Var 3 - Var 4) * Num (23820#1) - Var 2 * Num (47640#1) - Var 3 * (- (Num (8850#1) + Var 1 * Num (1#25))) - Var 3 * (- (Num (8850#1) + Var 1 * Num (1#25)))) + (Num (1#1) - Var 3) * (Num (83143#10000) * Var 0 * (Num (3#1) / Site 2) - Var 2 * Num (23820#1) - Var 2 * Num (23820#1) - (Num (11470#1) - Var 0 * Num (127#25) + Var 1 * Num (13#100) + (Num (1#1) - Var 2 - Num (2#1) * Var 3 - Var 4) * (Num (8850#1) + Var 1 * Num (1#25))) + (Num (1#1) - Var 2 - Num (2#1) * Var 3 - Var 4) * (- (Num (8850#1) + Var 1 * Num (1#25))) - Var 3 * (Num (-2#1) * (Num (8850#1) + Var 1 * Num (1#25)))) + (- Var 4) * (Num (83143#10000) * Var 0 * (Num (3#1) / Site 2 + Num (3#1) / Site 0 + Num (1#2) / Site 3 + Num (1#1) / Site 4) - Var 2 * Num (23820#1) - Var 2 * Num (23820#1) - Var 3 * (- (Num (8850#1) + Var 1 * Num (1#25))) - Var 3 * (- (Num (8850#1) + Var 1 * Num (1#25))))) / (Num (83143#10000) * Var 0)];
    [((- Var 2) * (Num (83143#10000) * Var 0 * (Num (3#1) / Site 2 + Num (3#1) / Site 0) - Num (2#1) * (Num (45380#1) - Var 0 * Num (1879#100) + Var 1 * Num (1#10) + (Num (1#1) - Num (2#1) * Var 2 - Var 3 - Var 4) * Num (-23820#1)) + (Num (1#1) - Num (2#1) * Var 2 - Var 3 - Var 4) * Num (47640#1) + (Num (1#1) - Num (2#1) * Var 2 - Var 3 - Var 4) * Num (47640#1) - Var 3 * (- (Num (8850#1) + Var 1 * Num (1#25))) - Var 3 * (- (Num (8850#1) + Var 1 * Num (1#25))) + Var 3 * (Num (-1750#1) + Var 1 * Num (-1#40)) + Var 3 * (Num (-1750#1) + Var 1 * Num (-1#40))) + (- Var 3) * (Num (83143#10000) * Var 0 * (Num (3#1) / Site 2) - (Num (45380#1) - Var 0 * Num (1879#100) + Var 1 * Num (1#10) + (Num (1#1) - Num (2#1) * Var 2 - Var 3 - Var 4) * Num (-23820#1)) + (Num (1#1) - Num (2#1) * Var 2 - Var 3 - Var 4) * Num (23820#1) - Var 2 * Num (47640#1) - (Num (11470#1) - Var 0 * Num (127#25) + Var 1 * Num (13#100) + (Num (1#1) - Var 2 - Num (2#1) * Var 3 - Var 4) * (Num (8850#1) + Var 1 * Num (1#25))) - Var 3 * (Num (-2#1) * (Num (8850#1) + Var 1 * Num (1#25))) - Var 3 * (- (Num (8850#1) + Var 1 * Num (1#25))) + (Num (1#1) - Var 2 - Var 3 - Var 4) * (- (Num (8850#1) + Var 1 * Num (1#25))) + (Num (1975#1) + Var 1 * Num (7#200) + (Var 2 - Var 3) * (Num (-1750#1) + Var 1 * Num (-1#40))) + Var 3 * (- (Num (-1750#1) + Var 1 * Num (-1#40))) + Var 2 * (Num (-1750#1) + Var 1 * Num (-1#40))) + (Num (1#1) - Var 4) * (Num (83143#10000) * Var 0 * (Num (3#1) / Site 2 + Num (3#1) / Site 0) - (Num (45380#1) - Var 0 * Num (1879#100) + Var 1 * Num (1#10) + (Num (1#1) - Num (2#1) * Var 2 - Var 3 - Var 4) * Num (-23820#1)) + (Num (1#1) - Num (2#1) * Var 2 - Var 3 - Var 4) * Num (23820#1) - Var 2 * Num (47640#1) - Var 3 * (- (Num (8850#1) + Var 1 * Num (1#25))) - Var 3 * (- (Num (8850#1) + Var 1 * Num (1#25))))) / (Num (83143#10000) * Var 0);
    ((- Var 2) * (Num (83143#10000) * Var 0 * (Num (3#1) / Site 2) - (Num (45380#1) - Var 0 * Num (1879#100) + Var 1 * Num (1#10) + (Num (1#1) - Num (2#1) * Var 2 - Var 3 - Var 4) * Num (-23820#1)) + (Num (1#1) - Num (2#1) * Var 2 - Var 3 - Var 4) * Num (23820#1) - Var 2 * Num (47640#1) - (Num (11470#1) - Var 0 * Num (127#25) + Var 1 * Num (13#100) + (Num (1#1) - Var 2 - Num (2#1) * Var 3 - Var 4) * (Num (8850#1) + Var 1 * Num (1#25))) - Var 3 * (Num (-2#1) * (Num (8850#1) + Var 1 * Num (1#25))) - Var 3 * (- (Num (8850#1) + Var 1 * Num (1#25))) + (Num (1#1) - Var 2 - Var 3 - Var 4) * (- (Num (8850#1) + Var 1 * Num (1#25))) + (Num (1975#1) + Var 1 * Num (7#200) + (Var 2 - Var 3) * (Num (-1750#1) + Var 1 * Num (-1#40))) + Var 3 * (- (Num (-1750#1) + Var 1 * Num (-1#40))) + Var 2 * (Num (-1750#1) + Var 1 * Num (-1#40))) + (- Var 3) * (Num (83143#10000) * Var 0 * (Num (3#1) / Site 2 + Num (3#1) / Site 1) - Var 2 * Num (23820#1) - Var 2 * Num (23820#1) - Num (2#1) * (Num (11470#1) - Var 0 * Num (127#25) + Var 1 * Num (13#100) + (Num (1#1) - Var 2 - Num (2#1) * Var 3 - Var 4) * (Num (8850#1) + Var 1 * Num (1#25))) + (Num (1#1) - Var 2 - Num (2#1) * Var 3 - Var 4) * (Num (-2#1) * (Num (8850#1) + Var 1 * Num (1#25))) + (Num (1#1) - Var 2 - Num (2#1) * Var 3 - Var 4) * (Num (-2#1) * (Num (8850#1) + Var 1 * Num (1#25))) + Var 2 * (- (Num (-1750#1) + Var 1 * Num (-1#40))) + Var 2 * (- (Num (-1750#1) + Var 1 * Num (-1#40)))) + (Num (1#1) - Var 4) * (Num (83143#10000) * Var 0 * (Num (3#1) / Site 2) - Var 2 * Num (23820#1) - Var 2 * Num (23820#1) - (Num (11470#1) - Var 0 * Num (127#25) + Var 1 * Num (13#100) + (Num (1#1) - Var 2 - Num (2#1) * Var 3 - Var 4) * (Num (8850#1) + Var 1 * Num (1#25))) + (Num (1#1) - Var 2 - Num (2#1) * Var 3 - Var 4) * (- (Num (8850#1) + Var 1 * Num (1#25))) - Var 3 * (Num (-2#1) * (Num (8850#1) + Var 1 * Num (1#25))))) / (Num (83143#10000) * Var 0);
    ((- Var 2) * (Num (83143#10000) * Var 0 * (Num (3#1) / Site 2 + Num (3#1) / Site 0) - (Num (45380#1) - Var 0 * Num (1879#100) + Var 1 * Num (1#10) + (Num (1#1) - Num (2#1) * Var 2 - Var 3 - Var 4) * Num (-23820#1)) + (Num (1#1) - Num (2#1) * Var 2 - Var 3 - Var 4) * Num (23820#1) - Var 2 * Num (47640#1) - Var 3 * (- (Num (8850#1) + Var 1 * Num (1#25))) - Var 3 * (- (Num (8850#1) + Var 1 * Num (1#25)))) + (- Var 3) * (Num (83143#10000) * Var 0 * (Num (3#1) / Site 2) - Var 2 * Num (23820#1) - Var 2 * Num (23820#1) - (Num (11470#1) - Var 0 * Num (127#25) + Var 1 * Num (13#100) + (Num (1#1) - Var 2 - Num (2#1) * Var 3 - Var 4) * (Num (8850#1) + Var 1 * Num (1#25))) + (Num (1#1) - Var 2 - Num (2#1) * Var 3 - Var 4) * (- (Num (8850#1) + Var 1 * Num (1#25))) - Var 3 * (Num (-2#1) * (Num (8850#1) + Var 1 * Num (1#25)))) + (Num (1#1) - Var 4) * (Num (83143#10000) * Var 0 * (Num (3#1) / Site 2 + Num (3#1) / Site 0 + Num (1#2) / Site 3 + Num (1#1) / Site 4) - Var 2 * Num (23820#1) - Var 2 * Num (23820#1) - Var 3 * (- (Num (8850#1) + Var 1 * Num (1#25))) - Var 3 * (- (Num (8850#1) + Var 1 * Num (1#25))))) / (Num (83143#10000) * Var 0)]].
(** the site fractions of sources/majorite.c (first lines of each function); clamped: (x > DBL_EPSILON) ? x : DBL_EPSILON;
    unclamped: an argument of log or a denominator that the code does not guard *)
Definition Maj_sites : list site :=
  [mkSite (Var 2 + Var 4) Low;
   mkSite (Var 3) Low;
   mkSite (Num (1#1) - Var 2 - Var 3 - Var 4) Low;
   mkSite (Var 4 / Num (2#1)) Low;
   mkSite (Num (1#1) - Var 4) Low].
Definition Maj : phase :=
  mkPhase "majorite" 4 3 conMaj Maj_sites Maj_g0 Maj_g1 Maj_g2 Maj_g3 Maj_h0 Maj_s0 Maj_s1 Maj_s2 Maj_c0 Maj_ct Maj_c1
    Maj_v0 Maj_v1 Maj_v2 Maj_vt Maj_vp Maj_vtt Maj_vtp Maj_vpp Maj_v1t Maj_v1p Maj_mu Maj_aArg Maj_aDx.

(** sources/olivine-sx.c 432-473: gmixOsx, output *gmix *)
Definition Osx_g0 :=
  Num (4500#1) * Site 0 * Site 1 * Site 0 + Num (4500#1) * Site 0 * Site 1 * Site 1 - Var 0 * (Num (-83143#10000) * (Site 0 * Log 0 + Site 1 * Log 1)).
(** sources/olivine-sx.c 432-473: gmixOsx, output dx[i] *)
Definition Osx_g1 :=
  [Num (83143#10000) * Var 0 * (Log 0 - Log 1) + Num (4500#1) * (Site 0 * Site 1 + (Site 1 - Site 0) * Site 0) + Num (4500#1) * ((- Site 0) * Site 1 + (Site 1 - Site 0) * Site 1)].
(** sources/olivine-sx.c 432-473: gmixOsx, output dx2[i][j] *)
Definition Osx_g2 :=
  [[Num (83143#10000) * Var 0 * (Num (1#1) / Site 0 + Num (1#1) / Site 1) - Num (9000#1) * Site 0 - Num (9000#1) * Site 1]].
(** sources/olivine-sx.c 432-473: gmixOsx, output dx3[i][j][k] *)
Definition Osx_g3 :=
  [[[Num (83143#10000) * Var 0 * (Num (1#1) / (Site 1 * Site 1) - Num (1#1) / (Site 0 * Site 0)) + Num (27000#1) - Num (27000#1)]]].
(** sources/olivine-sx.c 476-484: hmixOsx, output *hmix *)
Definition Osx_h0 :=
  Num (4500#1) * Site 0 * Site 1 * Site 0 + Num (4500#1) * Site 0 * Site 1 * Site 1 - Var 0 * (Num (-83143#10000) * (Site 0 * Log 0 + Site 1 * Log 1)) + Var 0 * (Num (-83143#10000) * (Site 0 * Log 0 + Site 1 * Log 1)).
(** sources/olivine-sx.c 487-520: smixOsx, output *smix *)
Definition Osx_s0 :=
  Num (-83143#10000) * (Site 0 * Log 0 + Site 1 * Log 1).
(** sources/olivine-sx.c 487-520: smixOsx, output dx[i] *)
Definition Osx_s1 :=
  [(- (Num (83143#10000) * (Log 0 - Log 1)))].
(** sources/olivine-sx.c 487-520: smixOsx, output dx2[i][j] *)
Definition Osx_s2 :=
  [[(- (Num (83143#10000) * (Num (1#1) / Site 0 + Num (1#1) / Site 1)))]].
(** sources/olivine-sx.c 523-550: cpmixOsx, output *cpmix *)
Definition Osx_c0 :=
  Num (0#1).
(** sources/olivine-sx.c 523-550: cpmixOsx, output *dt *)
Definition Osx_ct :=
  Num (0#1).
(** sources/olivine-sx.c 523-550: cpmixOsx, output dx[i] *)
Definition Osx_c1 :=
  [Num (0#1)].
(** sources/olivine-sx.c 553-631: vmixOsx, output *vmix *)
Definition Osx_v0 :=
  Num (0#1).
(** sources/olivine-sx.c 553-631: vmixOsx, output dx[i] *)
Definition Osx_v1 :=
  [Num (0#1)].
(** sources/olivine-sx.c 553-631: vmixOsx, output dx2[i][j] *)
Definition Osx_v2 :=
  [[Num (0#1)]].
(** sources/olivine-sx.c 553-631: vmixOsx, output *dt *)
Definition Osx_vt :=
  Num (0#1).
(** sources/olivine-sx.c 553-631: vmixOsx, output *dp *)
Definition Osx_vp :=
  Num (0#1).
(** sources/olivine-sx.c 553-631: vmixOsx, output *dt2 *)
Definition Osx_vtt :=
  Num (0#1).
(** sources/olivine-sx.c 553-631: vmixOsx, output *dtdp *)
Definition Osx_vtp :=
  Num (0#1).
(** sources/olivine-sx.c 553-631: vmixOsx, output *dp2 *)
Definition Osx_vpp :=
  Num (0#1).
(** sources/olivine-sx.c 553-631: vmixOsx, output dxdt[i] *)
Definition Osx_v1t :=
  [Num (0#1)].
(** sources/olivine-sx.c 553-631: vmixOsx, output dxdp[i] *)
Definition Osx_v1p :=
  [Num (0#1)].
(** sources/olivine-sx.c 356-429: actOsx, output mu[i] *)
Definition Osx_mu :=
  [Num (4500#1) * Site 0 * Site 1 * Site 0 + Num (4500#1) * Site 0 * Site 1 * Site 1 - Var 0 * (Num (-83143#10000) * (Site 0 * Log 0 + Site 1 * Log 1)) + (Num (1#1) - Site 0) * (Num (83143#10000) * Var 0 * (Log 0 - Log 1) + Num (4500#1) * (Site 0 * Site 1 + (Site 1 - Site 0) * Site 0) + Num (4500#1) * ((- Site 0) * Site 1 + (Site 1 - Site 0) * Site 1));
    Num (4500#1) * Site 0 * Site 1 * Site 0 + Num (4500#1) * Site 0 * Site 1 * Site 1 - Var 0 * (Num (-83143#10000) * (Site 0 * Log 0 + Site 1 * Log 1)) + (- Site 0) * (Num (83143#10000) * Var 0 * (Log 0 - Log 1) + Num (4500#1) * (Site 0 * Site 1 + (Site 1 - Site 0) * Site 0) + Num (4500#1) * ((- Site 0) * Site 1 + (Site 1 - Site 0) * Site 1))].
(** sources/olivine-sx.c 356-429: actOsx, output a[i] is exp of *)
Definition Osx_aArg :=
  [(Num (4500#1) * Site 0 * Site 1 * Site 0 + Num (4500#1) * Site 0 * Site 1 * Site 1 - Var 0 * (Num (-83143#10000) * (Site 0 * Log 0 + Site 1 * Log 1)) + (Num (1#1) - Site 0) * (Num (83143#10000) * Var 0 * (Log 0 - Log 1) + Num (4500#1) * (Site 0 * Site 1 + (Site 1 - Site 0) * Site 0) + Num (4500#1) * ((- Site 0) * Site 1 + (Site 1 - Site 0) * Site 1))) / (Num (83143#10000) * Var 0);
    (Num (4500#1) * Site 0 * Site 1 * Site 0 + Num (4500#1) * Site 0 * Site 1 * Site 1 - Var 0 * (Num (-83143#10000) * (Site 0 * Log 0 + Site 1 * Log 1)) + (- Site 0) * (Num (83143#10000) * Var 0 * (Log 0 - Log 1) + Num (4500#1) * (Site 0 * Site 1 + (Site 1 - Site 0) * Site 0) + Num (4500#1) * ((- Site 0) * Site 1 + (Site 1 - Site 0) * Site 1))) / (Num (83143#10000) * Var 0)].
(** sources/olivine-sx.c 356-429: actOsx, output dx[i][k] is a[i] times *)
Definition Osx_aDx :=
  [[(Num (1#1) - Site 0) * (Num (83143#10000) * Var 0 * (Num (1#1) / Site 0 + Num (1#1) / Site 1) - Num (9000#1) * Site 0 - Num (9000#1) * Site 1) / (Num (83143#10000) * Var 0)];
    [(- Site 0) * (Num (83143#10000) * Var 0 * (Num (1#1) / Site 0 + Num (1#1) / Site 1) - Num (9000#1) * Site 0 - Num (9000#1) * Site 1) / (Num (83143#10000) * Var 0)]].
(** the site fractions of sources/olivine-sx.c (first lines of each function); clamped: (x > DBL_EPSILON) ? x : DBL_EPSILON;
    unclamped: an argument of log or a denominator that the code does not guard *)
Definition Osx_sites : list site :=
  [mkSite (Var 2) Low;
   mkSite (Num (1#1) - Var 2) Low].
Definition Osx : phase :=
  mkPhase "olivine-sx" 2 1 conOsx Osx_sites Osx_g0 Osx_g1 Osx_g2 Osx_g3 Osx_h0 Osx_s0 Osx_s1 Osx_s2 Osx_c0 Osx_ct Osx_c1
    Osx_v0 Osx_v1 Osx_v2 Osx_vt Osx_vp Osx_vtt Osx_vtp Osx_vpp Osx_v1t Osx_v1p Osx_mu Osx_aArg Osx_aDx.

(** sources/perovskite.c 432-473: gmixPvk, output *gmix *)
Definition Pvk_g0 :=
  Num (-4050#1) * Site 0 * Site 1 * Site 0 + Num (4120#1) * Site 0 * Site 1 * Site 1 - Var 0 * (Num (-83143#10000) * (Site 0 * Log 0 + Site 1 * Log 1) + Num (29#20) * Site 0 * Site 1 * Site 0 + Num (127#100) * Site 0 * Site 1 * Site 1) + Var 1 * (Num (3#200) * Site 0 * Site 1 * Site 0 + Num (11#1000) * Site 0 * Site 1 * Site 1).
(** sources/perovskite.c 432-473: gmixPvk, output dx[i] *)
Definition Pvk_g1 :=
  [Num (83143#10000) * Var 0 * (Log 0 - Log 1) + (Num (-4050#1) - Var 0 * Num (29#20) + Var 1 * Num (3#200)) * (Site 0 * Site 1 + (Site 1 - Site 0) * Site 0) + (Num (4120#1) - Var 0 * Num (127#100) + Var 1 * Num (11#1000)) * ((- Site 0) * Site 1 + (Site 1 - Site 0) * Site 1)].
(** sources/perovskite.c 432-473: gmixPvk, output dx2[i][j] *)
Definition Pvk_g2 :=
  [[Num (83143#10000) * Var 0 * (Num (1#1) / Site 0 + Num (1#1) / Site 1) + Num (2#1) * (Site 1 - Site 0) * (Num (-4050#1) - Var 0 * Num (29#20) + Var 1 * Num (3#200) - (Num (4120#1) - Var 0 * Num (127#100) + Var 1 * Num (11#1000))) - Num (2#1) * (Num (-4050#1) - Var 0 * Num (29#20) + Var 1 * Num (3#200)) * Site 0 - Num (2#1) * (Num (4120#1) - Var 0 * Num (127#100) + Var 1 * Num (11#1000)) * Site 1]].
(** sources/perovskite.c 432-473: gmixPvk, output dx3[i][j][k] *)
Definition Pvk_g3 :=
  [[[Num (83143#10000) * Var 0 * (Num (1#1) / (Site 1 * Site 1) - Num (1#1) / (Site 0 * Site 0)) + Num (6#1) * (Num (4120#1) - Var 0 * Num (127#100) + Var 1 * Num (11#1000)) - Num (6#1) * (Num (-4050#1) - Var 0 * Num (29#20) + Var 1 * Num (3#200))]]].
(** sources/perovskite.c 476-484: hmixPvk, output *hmix *)
Definition Pvk_h0 :=
  Num (-4050#1) * Site 0 * Site 1 * Site 0 + Num (4120#1) * Site 0 * Site 1 * Site 1 - Var 0 * (Num (-83143#10000) * (Site 0 * Log 0 + Site 1 * Log 1) + Num (29#20) * Site 0 * Site 1 * Site 0 + Num (127#100) * Site 0 * Site 1 * Site 1) + Var 1 * (Num (3#200) * Site 0 * Site 1 * Site 0 + Num (11#1000) * Site 0 * Site 1 * Site 1) + Var 0 * (Num (-83143#10000) * (Site 0 * Log 0 + Site 1 * Log 1) + Num (29#20) * Site 0 * Site 1 * Site 0 + Num (127#100) * Site 0 * Site 1 * Site 1).
(** sources/perovskite.c 487-520: smixPvk, output *smix *)
Definition Pvk_s0 :=
  Num (-83143#10000) * (Site 0 * Log 0 + Site 1 * Log 1) + Num (29#20) * Site 0 * Site 1 * Site 0 + Num (127#100) * Site 0 * Site 1 * Site 1.
(** sources/perovskite.c 487-520: smixPvk, output dx[i] *)
Definition Pvk_s1 :=
  [(- (Num (83143#10000) * (Log 0 - Log 1) - (Num (29#20) * (Site 0 * Site 1 + (Site 1 - Site 0) * Site 0) + Num (127#100) * ((- Site 0) * Site 1 + (Site 1 - Site 0) * Site 1))))].
(** sources/perovskite.c 487-520: smixPvk, output dx2[i][j] *)
Definition Pvk_s2 :=
  [[(- (Num (83143#10000) * (Num (1#1) / Site 0 + Num (1#1) / Site 1) - (Num (2#1) * (Site 1 - Site 0) * Num (9#50) - Num (29#10) * Site 0 - Num (127#50) * Site 1)))]].
(** sources/perovskite.c 523-550: cpmixPvk, output *cpmix *)
Definition Pvk_c0 :=
  Num (0#1).
(** sources/perovskite.c 523-550: cpmixPvk, output *dt *)
Definition Pvk_ct :=
  Num (0#1).
(** sources/perovskite.c 523-550: cpmixPvk, output dx[i] *)
Definition Pvk_c1 :=
  [Num (0#1)].
(** sources/perovskite.c 553-631: vmixPvk, output *vmix *)
Definition Pvk_v0 :=
  Num (3#200) * Site 0 * Site 1 * Site 0 + Num (11#1000) * Site 0 * Site 1 * Site 1.
(** sources/perovskite.c 553-631: vmixPvk, output dx[i] *)
Definition Pvk_v1 :=
  [Num (3#200) * (Site 0 * Site 1 + (Site 1 - Site 0) * Site 0) + Num (11#1000) * ((- Site 0) * Site 1 + (Site 1 - Site 0) * Site 1)].
(** sources/perovskite.c 553-631: vmixPvk, output dx2[i][j] *)
Definition Pvk_v2 :=
  [[Num (2#1) * (Site 1 - Site 0) * Num (1#250) - Num (3#100) * Site 0 - Num (11#500) * Site 1]].
(** sources/perovskite.c 553-631: vmixPvk, output *dt *)
Definition Pvk_vt :=
  Num (0#1).
(** sources/perovskite.c 553-631: vmixPvk, output *dp *)
Definition Pvk_vp :=
  Num (0#1).
(** sources/perovskite.c 553-631: vmixPvk, output *dt2 *)
Definition Pvk_vtt :=
  Num (0#1).
(** sources/perovskite.c 553-631: vmixPvk, output *dtdp *)
Definition Pvk_vtp :=
  Num (0#1).
(** sources/perovskite.c 553-631: vmixPvk, output *dp2 *)
Definition Pvk_vpp :=
  Num (0#1).
(** sources/perovskite.c 553-631: vmixPvk, output dxdt[i] *)
Definition Pvk_v1t :=
  [Num (0#1)].
(** sources/perovskite.c 553-631: vmixPvk, output dxdp[i] *)
Definition Pvk_v1p :=
  [Num (0#1)].
(** sources/perovskite.c 356-429: actPvk, output mu[i] *)
Definition Pvk_mu :=
  [Num (-4050#1) * Site 0 * Site 1 * Site 0 + Num (4120#1) * Site 0 * Site 1 * Site 1 - Var 0 * (Num (-83143#10000) * (Site 0 * Log 0 + Site 1 * Log 1) + Num (29#20) * Site 0 * Site 1 * Site 0 + Num (127#100) * Site 0 * Site 1 * Site 1) + Var 1 * (Num (3#200) * Site 0 * Site 1 * Site 0 + Num (11#1000) * Site 0 * Site 1 * Site 1) + (Num (1#1) - Site 0) * (Num (83143#10000) * Var 0 * (Log 0 - Log 1) + (Num (-4050#1) - Var 0 * Num (29#20) + Var 1 * Num (3#200)) * (Site 0 * Site 1 + (Site 1 - Site 0) * Site 0) + (Num (4120#1) - Var 0 * Num (127#100) + Var 1 * Num (11#1000)) * ((- Site 0) * Site 1 + (Site 1 - Site 0) * Site 1));
    Num (-4050#1) * Site 0 * Site 1 * Site 0 + Num (4120#1) * Site 0 * Site 1 * Site 1 - Var 0 * (Num (-83143#10000) * (Site 0 * Log 0 + Site 1 * Log 1) + Num (29#20) * Site 0 * Site 1 * Site 0 + Num (127#100) * Site 0 * Site 1 * Site 1) + Var 1 * (Num (3#200) * Site 0 * Site 1 * Site 0 + Num (11#1000) * Site 0 * Site 1 * Site 1) + (- Site 0) * (Num (83143#10000) * Var 0 * (Log 0 - Log 1) + (Num (-4050#1) - Var 0 * Num (29#20) + Var 1 * Num (3#200)) * (Site 0 * Site 1 + (Site 1 - Site 0) * Site 0) + (Num (4120#1) - Var 0 * Num (127#100) + Var 1 * Num (11#1000)) * ((- Site 0) * Site 1 + (Site 1 - Site 0) * Site 1))].
(** sources/perovskite.c 356-429: actPvk, output a[i] is exp of *)
Definition Pvk_aArg :=
  [(Num (-4050#1) * Site 0 * Site 1 * Site 0 + Num (4120#1) * Site 0 * Site 1 * Site 1 - Var 0 * (Num (-83143#10000) * (Site 0 * Log 0 + Site 1 * Log 1) + Num (29#20) * Site 0 * Site 1 * Site 0 + Num (127#100) * Site 0 * Site 1 * Site 1) + Var 1 * (Num (3#200) * Site 0 * Site 1 * Site 0 + Num (11#1000) * Site 0 * Site 1 * Site 1) + (Num (1#1) - Site 0) * (Num (83143#10000) * Var 0 * (Log 0 - Log 1) + (Num (-4050#1) - Var 0 * Num (29#20) + Var 1 * Num (3#200)) * (Site 0 * Site 1 + (Site 1 - Site 0) * Site 0) + (Num (4120#1) - Var 0 * Num (127#100) + Var 1 * Num (11#1000)) * ((- Site 0) * Site 1 + (Site 1 - Site 0) * Site 1))) / (Num (83143#10000) * Var 0);
    (Num (-4050#1) * Site 0 * Site 1 * Site 0 + Num (4120#1) * Site 0 * Site 1 * Site 1 - Var 0 * (Num (-83143#10000) * (Site 0 * Log 0 + Site 1 * Log 1) + Num (29#20) * Site 0 * Site 1 * Site 0 + Num (127#100) * Site 0 * Site 1 * Site 1) + Var 1 * (Num (3#200) * Site 0 * Site 1 * Site 0 + Num (11#1000) * Site 0 * Site 1 * Site 1) + (- Site 0) * (Num (83143#10000) * Var 0 * (Log 0 - Log 1) + (Num (-4050#1) - Var 0 * Num (29#20) + Var 1 * Num (3#200)) * (Site 0 * Site 1 + (Site 1 - Site 0) * Site 0) + (Num (4120#1) - Var 0 * Num (127#100) + Var 1 * Num (11#1000)) * ((- Site 0) * Site 1 + (Site 1 - Site 0) * Site 1))) / (Num (83143#10000) * Var 0)].
(** sources/perovskite.c 356-429: actPvk, output dx[i][k] is a[i] times *)
Definition Pvk_aDx :=
  [[(Num (1#1) - Site 0) * (Num (83143#10000) * Var 0 * (Num (1#1) / Site 0 + Num (1#1) / Site 1) + Num (2#1) * (Site 1 - Site 0) * (Num (-4050#1) - Var 0 * Num (29#20) + Var 1 * Num (3#200) - (Num (4120#1) - Var 0 * Num (127#100) + Var 1 * Num (11#1000))) - Num (2#1) * (Num (-4050#1) - Var 0 * Num (29#20) + Var 1 * Num (3#200)) * Site 0 - Num (2#1) * (Num (4120#1) - Var 0 * Num (127#100) + Var 1 * Num (11#1000)) * Site 1) / (Num (83143#10000) * Var 0)];
    [(- Site 0) * (Num (83143#10000) * Var 0 * (Num (1#1) / Site 0 + Num (1#1) / Site 1) + Num (2#1) * (Site 1 - Site 0) * (Num (-4050#1) - Var 0 * Num (29#20) + Var 1 * Num (3#200) - (Num (4120#1) - Var 0 * Num (127#100) + Var 1 * Num (11#1000))) - Num (2#1) * (Num (-4050#1) - Var 0 * Num (29#20) + Var 1 * Num (3#200)) * Site 0 - Num (2#1) * (Num (4120#1) - Var 0 * Num (127#100) + Var 1 * Num (11#1000)) * Site 1) / (Num (83143#10000) * Var 0)]].
(** the site fractions of sources/perovskite.c (first lines of each function); clamped: (x > DBL_EPSILON) ? x : DBL_EPSILON;
    unclamped: an argument of log or a denominator that the code does not guard *)
Definition Pvk_sites : list site :=
  [mkSite (Var 2) Low;
   mkSite (Num (1#1) - Var 2) Low].
Definition Pvk : phase :=
  mkPhase "perovskite" 2 1 conPvk Pvk_sites Pvk_g0 Pvk_g1 Pvk_g2 Pvk_g3 Pvk_h0 Pvk_s0 Pvk_s1 Pvk_s2 Pvk_c0 Pvk_ct Pvk_c1
    Pvk_v0 Pvk_v1 Pvk_v2 Pvk_vt Pvk_vp Pvk_vtt Pvk_vtp Pvk_vpp Pvk_v1t Pvk_v1p Pvk_mu Pvk_aArg Pvk_aDx.

(** sources/ringwoodite.c 432-473: gmixRgw, output *gmix *)
Definition Rgw_g0 :=
  Num (3900#1) * Site 0 * Site 1 * Site 0 + Num (3900#1) * Site 0 * Site 1 * Site 1 - Var 0 * (Num (-83143#10000) * (Site 0 * Log 0 + Site 1 * Log 1) + Num (11#10) * Site 0 * Site 1 * Site 0).
(** sources/ringwoodite.c 432-473: gmixRgw, output dx[i] *)
Definition Rgw_g1 :=
  [Num (83143#10000) * Var 0 * (Log 0 - Log 1) + (Num (3900#1) - Var 0 * Num (11#10)) * (Site 0 * Site 1 + (Site 1 - Site 0) * Site 0) + Num (3900#1) * ((- Site 0) * Site 1 + (Site 1 - Site 0) * Site 1)].
(** sources/ringwoodite.c 432-473: gmixRgw, output dx2[i][j] *)
Definition Rgw_g2 :=
  [[Num (83143#10000) * Var 0 * (Num (1#1) / Site 0 + Num (1#1) / Site 1) + Num (2#1) * (Site 1 - Site 0) * (Num (3900#1) - Var 0 * Num (11#10) - Num (3900#1)) - Num (2#1) * (Num (3900#1) - Var 0 * Num (11#10)) * Site 0 - Num (7800#1) * Site 1]].
(** sources/ringwoodite.c 432-473: gmixRgw, output dx3[i][j][k] *)
Definition Rgw_g3 :=
  [[[Num (83143#10000) * Var 0 * (Num (1#1) / (Site 1 * Site 1) - Num (1#1) / (Site 0 * Site 0)) + Num (23400#1) - Num (6#1) * (Num (3900#1) - Var 0 * Num (11#10))]]].
(** sources/ringwoodite.c 476-484: hmixRgw, output *hmix *)
Definition Rgw_h0 :=
  Num (3900#1) * Site 0 * Site 1 * Site 0 + Num (3900#1) * Site 0 * Site 1 * Site 1 - Var 0 * (Num (-83143#10000) * (Site 0 * Log 0 + Site 1 * Log 1) + Num (11#10) * Site 0 * Site 1 * Site 0) + Var 0 * (Num (-83143#10000) * (Site 0 * Log 0 + Site 1 * Log 1) + Num (11#10) * Site 0 * Site 1 * Site 0).
(** sources/ringwoodite.c 487-520: smixRgw, output *smix *)
Definition Rgw_s0 :=
  Num (-83143#10000) * (Site 0 * Log 0 + Site 1 * Log 1) + Num (11#10) * Site 0 * Site 1 * Site 0.
(** sources/ringwoodite.c 487-520: smixRgw, output dx[i] *)
Definition Rgw_s1 :=
  [(- (Num (83143#10000) * (Log 0 - Log 1) - Num (11#10) * (Site 0 * Site 1 + (Site 1 - Site 0) * Site 0)))].
(** sources/ringwoodite.c 487-520: smixRgw, output dx2[i][j] *)
Definition Rgw_s2 :=
  [[(- (Num (83143#10000) * (Num (1#1) / Site 0 + Num (1#1) / Site 1) - (Num (2#1) * (Site 1 - Site 0) * Num (11#10) - Num (11#5) * Site 0)))]].
(** sources/ringwoodite.c 523-550: cpmixRgw, output *cpmix *)
Definition Rgw_c0 :=
  Num (0#1).
(** sources/ringwoodite.c 523-550: cpmixRgw, output *dt *)
Definition Rgw_ct :=
  Num (0#1).
(** sources/ringwoodite.c 523-550: cpmixRgw, output dx[i] *)
Definition Rgw_c1 :=
  [Num (0#1)].
(** sources/ringwoodite.c 553-631: vmixRgw, output *vmix *)
Definition Rgw_v0 :=
  Num (0#1).
(** sources/ringwoodite.c 553-631: vmixRgw, output dx[i] *)
Definition Rgw_v1 :=
  [Num (0#1)].
(** sources/ringwoodite.c 553-631: vmixRgw, output dx2[i][j] *)
Definition Rgw_v2 :=
  [[Num (0#1)]].
(** sources/ringwoodite.c 553-631: vmixRgw, output *dt *)
Definition Rgw_vt :=
  Num (0#1).
(** sources/ringwoodite.c 553-631: vmixRgw, output *dp *)
Definition Rgw_vp :=
  Num (0#1).
(** sources/ringwoodite.c 553-631: vmixRgw, output *dt2 *)
Definition Rgw_vtt :=
  Num (0#1).
(** sources/ringwoodite.c 553-631: vmixRgw, output *dtdp *)
Definition Rgw_vtp :=
  Num (0#1).
(** sources/ringwoodite.c 553-631: vmixRgw, output *dp2 *)
Definition Rgw_vpp :=
  Num (0#1).
(** sources/ringwoodite.c 553-631: vmixRgw, output dxdt[i] *)
Definition Rgw_v1t :=
  [Num (0#1)].
(** sources/ringwoodite.c 553-631: vmixRgw, output dxdp[i] *)
Definition Rgw_v1p :=
  [Num (0#1)].
(** sources/ringwoodite.c 356-429: actRgw, output mu[i] *)
Definition Rgw_mu :=
  [Num (3900#1) * Site 0 * Site 1 * Site 0 + Num (3900#1) * Site 0 * Site 1 * Site 1 - Var 0 * (Num (-83143#10000) * (Site 0 * Log 0 + Site 1 * Log 1) + Num (11#10) * Site 0 * Site 1 * Site 0) + (Num (1#1) - Site 0) * (Num (83143#10000) * Var 0 * (Log 0 - Log 1) + (Num (3900#1) - Var 0 * Num (11#10)) * (Site 0 * Site 1 + (Site 1 - Site 0) * Site 0) + Num (3900#1) * ((- Site 0) * Site 1 + (Site 1 - Site 0) * Site 1));
    Num (3900#1) * Site 0 * Site 1 * Site 0 + Num (3900#1) * Site 0 * Site 1 * Site 1 - Var 0 * (Num (-83143#10000) * (Site 0 * Log 0 + Site 1 * Log 1) + Num (11#10) * Site 0 * Site 1 * Site 0) + (- Site 0) * (Num (83143#10000) * Var 0 * (Log 0 - Log 1) + (Num (3900#1) - Var 0 * Num (11#10)) * (Site 0 * Site 1 + (Site 1 - Site 0) * Site 0) + Num (3900#1) * ((- Site 0) * Site 1 + (Site 1 - Site 0) * Site 1))].
(** sources/ringwoodite.c 356-429: actRgw, output a[i] is exp of *)
Definition Rgw_aArg :=
  [(Num (3900#1) * Site 0 * Site 1 * Site 0 + Num (3900#1) * Site 0 * Site 1 * Site 1 - Var 0 * (Num (-83143#10000) * (Site 0 * Log 0 + Site 1 * Log 1) + Num (11#10) * Site 0 * Site 1 * Site 0) + (Num (1#1) - Site 0) * (Num (83143#10000) * Var 0 * (Log 0 - Log 1) + (Num (3900#1) - Var 0 * Num (11#10)) * (Site 0 * Site 1 + (Site 1 - Site 0) * Site 0) + Num (3900#1) * ((- Site 0) * Site 1 + (Site 1 - Site 0) * Site 1))) / (Num (83143#10000) * Var 0);
    (Num (3900#1) * Site 0 * Site 1 * Site 0 + Num (3900#1) * Site 0 * Site 1 * Site 1 - Var 0 * (Num (-83143#10000) * (Site 0 * Log 0 + Site 1 * Log 1) + Num (11#10) * Site 0 * Site 1 * Site 0) + (- Site 0) * (Num (83143#10000) * Var 0 * (Log 0 - Log 1) + (Num (3900#1) - Var 0 * Num (11#10)) * (Site 0 * Site 1 + (Site 1 - Site 0) * Site 0) + Num (3900#1) * ((- Site 0) * Site 1 + (Site 1 - Site 0) * Site 1))) / (Num (83143#10000) * Var 0)].
(** sources/ringwoodite.c 356-429: actRgw, output dx[i][k] is a[i] times *)
Definition Rgw_aDx :=
  [[(Num (1#1) - Site 0) * (Num (83143#10000) * Var 0 * (Num (1#1) / Site 0 + Num (1#1) / Site 1) + Num (2#1) * (Site 1 - Site 0) * (Num (3900#1) - Var 0 * Num (11#10) - Num (3900#1)) - Num (2#1) * (Num (3900#1) - Var 0 * Num (11#10)) * Site 0 - Num (7800#1) * Site 1) / (Num (83143#10000) * Var 0)];
    [(- Site 0) * (Num (83143#10000) * Var 0 * (Num (1#1) / Site 0 + Num (1#1) / Site 1) + Num (2#1) * (Site 1 - Site 0) * (Num (3900#1) - Var 0 * Num (11#10) - Num (3900#1)) - Num (2#1) * (Num (3900#1) - Var 0 * Num (11#10)) * Site 0 - Num (7800#1) * Site 1) / (Num (83143#10000) * Var 0)]].
(** the site fractions of sources/ringwoodite.c (first lines of each function); clamped: (x > DBL_EPSILON) ? x : DBL_EPSILON;
    unclamped: an argument of log or a denominator that the code does not guard *)
Definition Rgw_sites : list site :=
  [mkSite (Var 2) Low;
   mkSite (Num (1#1) - Var 2) Low].
Definition Rgw : phase :=
  mkPhase "ringwoodite" 2 1 conRgw Rgw_sites Rgw_g0 Rgw_g1 Rgw_g2 Rgw_g3 Rgw_h0 Rgw_s0 Rgw_s1 Rgw_s2 Rgw_c0 Rgw_ct Rgw_c1
    Rgw_v0 Rgw_v1 Rgw_v2 Rgw_vt Rgw_vp Rgw_vtt Rgw_vtp Rgw_vpp Rgw_v1t Rgw_v1p Rgw_mu Rgw_aArg Rgw_aDx.

(** sources/wadsleyite.c 432-473: gmixWds, output *gmix *)
Definition Wds_g0 :=
  Num (1000#1) * Site 0 * Site 1 * Site 0 + Num (2000#1) * Site 0 * Site 1 * Site 1 - Var 0 * (Num (-83143#10000) * (Site 0 * Log 0 + Site 1 * Log 1)).
(** sources/wadsleyite.c 432-473: gmixWds, output dx[i] *)
Definition Wds_g1 :=
  [Num (83143#10000) * Var 0 * (Log 0 - Log 1) + Num (1000#1) * (Site 0 * Site 1 + (Site 1 - Site 0) * Site 0) + Num (2000#1) * ((- Site 0) * Site 1 + (Site 1 - Site 0) * Site 1)].
(** sources/wadsleyite.c 432-473: gmixWds, output dx2[i][j] *)
Definition Wds_g2 :=
  [[Num (83143#10000) * Var 0 * (Num (1#1) / Site 0 + Num (1#1) / Site 1) + Num (2#1) * (Site 1 - Site 0) * Num (-1000#1) - Num (2000#1) * Site 0 - Num (4000#1) * Site 1]].
(** sources/wadsleyite.c 432-473: gmixWds, output dx3[i][j][k] *)
Definition Wds_g3 :=
  [[[Num (83143#10000) * Var 0 * (Num (1#1) / (Site 1 * Site 1) - Num (1#1) / (Site 0 * Site 0)) + Num (12000#1) - Num (6000#1)]]].
(** sources/wadsleyite.c 476-484: hmixWds, output *hmix *)
Definition Wds_h0 :=
  Num (1000#1) * Site 0 * Site 1 * Site 0 + Num (2000#1) * Site 0 * Site 1 * Site 1 - Var 0 * (Num (-83143#10000) * (Site 0 * Log 0 + Site 1 * Log 1)) + Var 0 * (Num (-83143#10000) * (Site 0 * Log 0 + Site 1 * Log 1)).
(** sources/wadsleyite.c 487-520: smixWds, output *smix *)
Definition Wds_s0 :=
  Num (-83143#10000) * (Site 0 * Log 0 + Site 1 * Log 1).
(** sources/wadsleyite.c 487-520: smixWds, output dx[i] *)
Definition Wds_s1 :=
  [(- (Num (83143#10000) * (Log 0 - Log 1)))].
(** sources/wadsleyite.c 487-520: smixWds, output dx2[i][j] *)
Definition Wds_s2 :=
  [[(- (Num (83143#10000) * (Num (1#1) / Site 0 + Num (1#1) / Site 1)))]].
(** sources/wadsleyite.c 523-550: cpmixWds, output *cpmix *)
Definition Wds_c0 :=
  Num (0#1).
(** sources/wadsleyite.c 523-550: cpmixWds, output *dt *)
Definition Wds_ct :=
  Num (0#1).
(** sources/wadsleyite.c 523-550: cpmixWds, output dx[i] *)
Definition Wds_c1 :=
  [Num (0#1)].
(** sources/wadsleyite.c 553-631: vmixWds, output *vmix *)
Definition Wds_v0 :=
  Num (0#1).
(** sources/wadsleyite.c 553-631: vmixWds, output dx[i] *)
Definition Wds_v1 :=
  [Num (0#1)].
(** sources/wadsleyite.c 553-631: vmixWds, output dx2[i][j] *)
Definition Wds_v2 :=
  [[Num (0#1)]].
(** sources/wadsleyite.c 553-631: vmixWds, output *dt *)
Definition Wds_vt :=
  Num (0#1).
(** sources/wadsleyite.c 553-631: vmixWds, output *dp *)
Definition Wds_vp :=
  Num (0#1).
(** sources/wadsleyite.c 553-631: vmixWds, output *dt2 *)
Definition Wds_vtt :=
  Num (0#1).
(** sources/wadsleyite.c 553-631: vmixWds, output *dtdp *)
Definition Wds_vtp :=
  Num (0#1).
(** sources/wadsleyite.c 553-631: vmixWds, output *dp2 *)
Definition Wds_vpp :=
  Num (0#1).
(** sources/wadsleyite.c 553-631: vmixWds, output dxdt[i] *)
Definition Wds_v1t :=
  [Num (0#1)].
(** sources/wadsleyite.c 553-631: vmixWds, output dxdp[i] *)
Definition Wds_v1p :=
  [Num (0#1)].
(** sources/wadsleyite.c 356-429: actWds, output mu[i] *)
Definition Wds_mu :=
  [Num (1000#1) * Site 0 * Site 1 * Site 0 + Num (2000#1) * Site 0 * Site 1 * Site 1 - Var 0 * (Num (-83143#10000) * (Site 0 * Log 0 + Site 1 * Log 1)) + (Num (1#1) - Site 0) * (Num (83143#10000) * Var 0 * (Log 0 - Log 1) + Num (1000#1) * (Site 0 * Site 1 + (Site 1 - Site 0) * Site 0) + Num (2000#1) * ((- Site 0) * Site 1 + (Site 1 - Site 0) * Site 1));
    Num (1000#1) * Site 0 * Site 1 * Site 0 + Num (2000#1) * Site 0 * Site 1 * Site 1 - Var 0 * (Num (-83143#10000) * (Site 0 * Log 0 + Site 1 * Log 1)) + (- Site 0) * (Num (83143#10000) * Var 0 * (Log 0 - Log 1) + Num (1000#1) * (Site 0 * Site 1 + (Site 1 - Site 0) * Site 0) + Num (2000#1) * ((- Site 0) * Site 1 + (Site 1 - Site 0) * Site 1))].
(** sources/wadsleyite.c 356-429: actWds, output a[i] is exp of *)
Definition Wds_aArg :=
  [(Num (1000#1) * Site 0 * Site 1 * Site 0 + Num (2000#1) * Site 0 * Site 1 * Site 1 - Var 0 * (Num (-83143#10000) * (Site 0 * Log 0 + Site 1 * Log 1)) + (Num (1#1) - Site 0) * (Num (83143#10000) * Var 0 * (Log 0 - Log 1) + Num (1000#1) * (Site 0 * Site 1 + (Site 1 - Site 0) * Site 0) + Num (2000#1) * ((- Site 0) * Site 1 + (Site 1 - Site 0) * Site 1))) / (Num (83143#10000) * Var 0);
    (Num (1000#1) * Site 0 * Site 1 * Site 0 + Num (2000#1) * Site 0 * Site 1 * Site 1 - Var 0 * (Num (-83143#10000) * (Site 0 * Log 0 + Site 1 * Log 1)) + (- Site 0) * (Num (83143#10000) * Var 0 * (Log 0 - Log 1) + Num (1000#1) * (Site 0 * Site 1 + (Site 1 - Site 0) * Site 0) + Num (2000#1) * ((- Site 0) * Site 1 + (Site 1 - Site 0) * Site 1))) / (Num (83143#10000) * Var 0)].
(** sources/wadsleyite.c 356-429: actWds, output dx[i][k] is a[i] times *)
Definition Wds_aDx :=
  [[(Num (1#1) - Site 0) * (Num (83143#10000) * Var 0 * (Num (1#1) / Site 0 + Num (1#1) / Site 1) + Num (2#1) * (Site 1 - Site 0) * Num (-1000#1) - Num (2000#1) * Site 0 - Num (4000#1) * Site 1) / (Num (83143#10000) * Var 0)];
    [(- Site 0) * (Num (83143#10000) * Var 0 * (Num (1#1) / Site 0 + Num (1#1) / Site 1) + Num (2#1) * (Site 1 - Site 0) * Num (-1000#1) - Num (2000#1) * Site 0 - Num (4000#1) * Site 1) / (Num (83143#10000) * Var 0)]].
(** the site fractions of sources/wadsleyite.c (first lines of each function); clamped: (x > DBL_EPSILON) ? x : DBL_EPSILON;
    unclamped: an argument of log or a denominator that the code does not guard *)
Definition Wds_sites : list site :=
  [mkSite (Var 2) Low;
   mkSite (Num (1#1) - Var 2) Low].
Definition Wds : phase :=
  mkPhase "wadsleyite" 2 1 conWds Wds_sites Wds_g0 Wds_g1 Wds_g2 Wds_g3 Wds_h0 Wds_s0 Wds_s1 Wds_s2 Wds_c0 Wds_ct Wds_c1
    Wds_v0 Wds_v1 Wds_v2 Wds_vt Wds_vp Wds_vtt Wds_vtp Wds_vpp Wds_v1t Wds_v1p Wds_mu Wds_aArg Wds_aDx.

(** sources/wustite.c 432-473: gmixWus, output *gmix *)
Definition Wus_g0 :=
  Num (16100#1) * Site 0 * Site 1 * Site 0 + Num (26300#1) * Site 0 * Site 1 * Site 1 - Var 0 * (Num (-83143#10000) * (Site 0 * Log 0 + Site 1 * Log 1) + Num (139#25) * Site 0 * Site 1 * Site 1).
(** sources/wustite.c 432-473: gmixWus, output dx[i] *)
Definition Wus_g1 :=
  [Num (83143#10000) * Var 0 * (Log 0 - Log 1) + Num (16100#1) * (Site 0 * Site 1 + (Site 1 - Site 0) * Site 0) + (Num (26300#1) - Var 0 * Num (139#25)) * ((- Site 0) * Site 1 + (Site 1 - Site 0) * Site 1)].
(** sources/wustite.c 432-473: gmixWus, output dx2[i][j] *)
Definition Wus_g2 :=
  [[Num (83143#10000) * Var 0 * (Num (1#1) / Site 0 + Num (1#1) / Site 1) + Num (2#1) * (Site 1 - Site 0) * (Num (16100#1) - (Num (26300#1) - Var 0 * Num (139#25))) - Num (32200#1) * Site 0 - Num (2#1) * (Num (26300#1) - Var 0 * Num (139#25)) * Site 1]].
(** sources/wustite.c 432-473: gmixWus, output dx3[i][j][k] *)
Definition Wus_g3 :=
  [[[Num (83143#10000) * Var 0 * (Num (1#1) / (Site 1 * Site 1) - Num (1#1) / (Site 0 * Site 0)) + Num (6#1) * (Num (26300#1) - Var 0 * Num (139#25)) - Num (96600#1)]]].
(** sources/wustite.c 476-484: hmixWus, output *hmix *)
Definition Wus_h0 :=
  Num (16100#1) * Site 0 * Site 1 * Site 0 + Num (26300#1) * Site 0 * Site 1 * Site 1 - Var 0 * (Num (-83143#10000) * (Site 0 * Log 0 + Site 1 * Log 1) + Num (139#25) * Site 0 * Site 1 * Site 1) + Var 0 * (Num (-83143#10000) * (Site 0 * Log 0 + Site 1 * Log 1) + Num (139#25) * Site 0 * Site 1 * Site 1).
(** sources/wustite.c 487-520: smixWus, output *smix *)
Definition Wus_s0 :=
  Num (-83143#10000) * (Site 0 * Log 0 + Site 1 * Log 1) + Num (139#25) * Site 0 * Site 1 * Site 1.
(** sources/wustite.c 487-520: smixWus, output dx[i] *)
Definition Wus_s1 :=
  [(- (Num (83143#10000) * (Log 0 - Log 1) - Num (139#25) * ((- Site 0) * Site 1 + (Site 1 - Site 0) * Site 1)))].
(** sources/wustite.c 487-520: smixWus, output dx2[i][j] *)
Definition Wus_s2 :=
  [[(- (Num (83143#10000) * (Num (1#1) / Site 0 + Num (1#1) / Site 1) - (Num (2#1) * (Site 1 - Site 0) * Num (-139#25) - Num (278#25) * Site 1)))]].
(** sources/wustite.c 523-550: cpmixWus, output *cpmix *)
Definition Wus_c0 :=
  Num (0#1).
(** sources/wustite.c 523-550: cpmixWus, output *dt *)
Definition Wus_ct :=
  Num (0#1).
(** sources/wustite.c 523-550: cpmixWus, output dx[i] *)
Definition Wus_c1 :=
  [Num (0#1)].
(** sources/wustite.c 553-631: vmixWus, output *vmix *)
Definition Wus_v0 :=
  Num (0#1).
(** sources/wustite.c 553-631: vmixWus, output dx[i] *)
Definition Wus_v1 :=
  [Num (0#1)].
(** sources/wustite.c 553-631: vmixWus, output dx2[i][j] *)
Definition Wus_v2 :=
  [[Num (0#1)]].
(** sources/wustite.c 553-631: vmixWus, output *dt *)
Definition Wus_vt :=
  Num (0#1).
(** sources/wustite.c 553-631: vmixWus, output *dp *)
Definition Wus_vp :=
  Num (0#1).
(** sources/wustite.c 553-631: vmixWus, output *dt2 *)
Definition Wus_vtt :=
  Num (0#1).
(** sources/wustite.c 553-631: vmixWus, output *dtdp *)
Definition Wus_vtp :=
  Num (0#1).
(** sources/wustite.c 553-631: vmixWus, output *dp2 *)
Definition Wus_vpp :=
  Num (0#1).
(** sources/wustite.c 553-631: vmixWus, output dxdt[i] *)
Definition Wus_v1t :=
  [Num (0#1)].
(** sources/wustite.c 553-631: vmixWus, output dxdp[i] *)
Definition Wus_v1p :=
  [Num (0#1)].
(** sources/wustite.c 356-429: actWus, output mu[i] *)
Definition Wus_mu :=
  [Num (16100#1) * Site 0 * Site 1 * Site 0 + Num (26300#1) * Site 0 * Site 1 * Site 1 - Var 0 * (Num (-83143#10000) * (Site 0 * Log 0 + Site 1 * Log 1) + Num (139#25) * Site 0 * Site 1 * Site 1) + (Num (1#1) - Site 0) * (Num (83143#10000) * Var 0 * (Log 0 - Log 1) + Num (16100#1) * (Site 0 * Site 1 + (Site 1 - Site 0) * Site 0) + (Num (26300#1) - Var 0 * Num (139#25)) * ((- Site 0) * Site 1 + (Site 1 - Site 0) * Site 1));
    Num (16100#1) * Site 0 * Site 1 * Site 0 + Num (26300#1) * Site 0 * Site 1 * Site 1 - Var 0 * (Num (-83143#10000) * (Site 0 * Log 0 + Site 1 * Log 1) + Num (139#25) * Site 0 * Site 1 * Site 1) + (- Site 0) * (Num (83143#10000) * Var 0 * (Log 0 - Log 1) + Num (16100#1) * (Site 0 * Site 1 + (Site 1 - Site 0) * Site 0) + (Num (26300#1) - Var 0 * Num (139#25)) * ((- Site 0) * Site 1 + (Site 1 - Site 0) * Site 1))].
(** sources/wustite.c 356-429: actWus, output a[i] is exp of *)
Definition Wus_aArg :=
  [(Num (16100#1) * Site 0 * Site 1 * Site 0 + Num (26300#1) * Site 0 * Site 1 * Site 1 - Var 0 * (Num (-83143#10000) * (Site 0 * Log 0 + Site 1 * Log 1) + Num (139#25) * Site 0 * Site 1 * Site 1) + (Num (1#1) - Site 0) * (Num (83143#10000) * Var 0 * (Log 0 - Log 1) + Num (16100#1) * (Site 0 * Site 1 + (Site 1 - Site 0) * Site 0) + (Num (26300#1) - Var 0 * Num (139#25)) * ((- Site 0) * Site 1 + (Site 1 - Site 0) * Site 1))) / (Num (83143#10000) * Var 0);
    (Num (16100#1) * Site 0 * Site 1 * Site 0 + Num (26300#1) * Site 0 * Site 1 * Site 1 - Var 0 * (Num (-83143#10000) * (Site 0 * Log 0 + Site 1 * Log 1) + Num (139#25) * Site 0 * Site 1 * Site 1) + (- Site 0) * (Num (83143#10000) * Var 0 * (Log 0 - Log 1) + Num (16100#1) * (Site 0 * Site 1 + (Site 1 - Site 0) * Site 0) + (Num (26300#1) - Var 0 * Num (139#25)) * ((- Site 0) * Site 1 + (Site 1 - Site 0) * Site 1))) / (Num (83143#10000) * Var 0)].
(** sources/wustite.c 356-429: actWus, output dx[i][k] is a[i] times *)
Definition Wus_aDx :=
  [[(Num (1#1) - Site 0) * (Num (83143#10000) * Var 0 * (Num (1#1) / Site 0 + Num (1#1) / Site 1) + Num (2#1) * (Site 1 - Site 0) * (Num (16100#1) - (Num (26300#1) - Var 0 * Num (139#25))) - Num (32200#1) * Site 0 - Num (2#1) * (Num (26300#1) - Var 0 * Num (139#25)) * Site 1) / (Num (83143#10000) * Var 0)];
    [(- Site 0) * (Num (83143#10000) * Var 0 * (Num (1#1) / Site 0 + Num (1#1) / Site 1) + Num (2#1) * (Site 1 - Site 0) * (Num (16100#1) - (Num (26300#1) - Var 0 * Num (139#25))) - Num (32200#1) * Site 0 - Num (2#1) * (Num (26300#1) - Var 0 * Num (139#25)) * Site 1) / (Num (83143#10000) * Var 0)]].
(** the site fractions of sources/wustite.c (first lines of each function); clamped: (x > DBL_EPSILON) ? x : DBL_EPSILON;
    unclamped: an argument of log or a denominator that the code does not guard *)
Definition Wus_sites : list site :=
  [mkSite (Var 2) Low;
   mkSite (Num (1#1) - Var 2) Low].
Definition Wus : phase :=
  mkPhase "wustite" 2 1 conWus Wus_sites Wus_g0 Wus_g1 Wus_g2 Wus_g3 Wus_h0 Wus_s0 Wus_s1 Wus_s2 Wus_c0 Wus_ct Wus_c1
    Wus_v0 Wus_v1 Wus_v2 Wus_vt Wus_vp Wus_vtt Wus_vtp Wus_vpp Wus_v1t Wus_v1p Wus_mu Wus_aArg Wus_aDx.

(** sources/ilmenite.c 441-482: gmixIlm, output *gmix *)
Definition Ilm_g0 :=
  (- (Var 0 * (Num (-83143#10000) * (Site 0 * Log 0 + Site 1 * Log 1)))).
(** sources/ilmenite.c 441-482: gmixIlm, output dx[i] *)
Definition Ilm_g1 :=
  [Num (83143#10000) * Var 0 * (Log 0 - Log 1)].
(** sources/ilmenite.c 441-482: gmixIlm, output dx2[i][j] *)
Definition Ilm_g2 :=
  [[Num (83143#10000) * Var 0 * (Num (1#1) / Site 0 + Num (1#1) / Site 1)]].
(** sources/ilmenite.c 441-482: gmixIlm, output dx3[i][j][k] *)
Definition Ilm_g3 :=
  [[[Num (83143#10000) * Var 0 * (Num (1#1) / (Site 1 * Site 1) - Num (1#1) / (Site 0 * Site 0))]]].
(** sources/ilmenite.c 485-493: hmixIlm, output *hmix *)
Definition Ilm_h0 :=
  (- (Var 0 * (Num (-83143#10000) * (Site 0 * Log 0 + Site 1 * Log 1)))) + Var 0 * (Num (-83143#10000) * (Site 0 * Log 0 + Site 1 * Log 1)).
(** sources/ilmenite.c 496-529: smixIlm, output *smix *)
Definition Ilm_s0 :=
  Num (-83143#10000) * (Site 0 * Log 0 + Site 1 * Log 1).
(** sources/ilmenite.c 496-529: smixIlm, output dx[i] *)
Definition Ilm_s1 :=
  [(- (Num (83143#10000) * (Log 0 - Log 1)))].
(** sources/ilmenite.c 496-529: smixIlm, output dx2[i][j] *)
Definition Ilm_s2 :=
  [[(- (Num (83143#10000) * (Num (1#1) / Site 0 + Num (1#1) / Site 1)))]].
(** sources/ilmenite.c 532-559: cpmixIlm, output *cpmix *)
Definition Ilm_c0 :=
  Num (0#1).
(** sources/ilmenite.c 532-559: cpmixIlm, output *dt *)
Definition Ilm_ct :=
  Num (0#1).
(** sources/ilmenite.c 532-559: cpmixIlm, output dx[i] *)
Definition Ilm_c1 :=
  [Num (0#1)].
(** sources/ilmenite.c 562-640: vmixIlm, output *vmix *)
Definition Ilm_v0 :=
  Num (0#1).
(** sources/ilmenite.c 562-640: vmixIlm, output dx[i] *)
Definition Ilm_v1 :=
  [Num (0#1)].
(** sources/ilmenite.c 562-640: vmixIlm, output dx2[i][j] *)
Definition Ilm_v2 :=
  [[Num (0#1)]].
(** sources/ilmenite.c 562-640: vmixIlm, output *dt *)
Definition Ilm_vt :=
  Num (0#1).
(** sources/ilmenite.c 562-640: vmixIlm, output *dp *)
Definition Ilm_vp :=
  Num (0#1).
(** sources/ilmenite.c 562-640: vmixIlm, output *dt2 *)
Definition Ilm_vtt :=
  Num (0#1).
(** sources/ilmenite.c 562-640: vmixIlm, output *dtdp *)
Definition Ilm_vtp :=
  Num (0#1).
(** sources/ilmenite.c 562-640: vmixIlm, output *dp2 *)
Definition Ilm_vpp :=
  Num (0#1).
(** sources/ilmenite.c 562-640: vmixIlm, output dxdt[i] *)
Definition Ilm_v1t :=
  [Num (0#1)].
(** sources/ilmenite.c 562-640: vmixIlm, output dxdp[i] *)
Definition Ilm_v1p :=
  [Num (0#1)].
(** sources/ilmenite.c 356-438: actIlm, output mu[i] *)
Definition Ilm_mu :=
  [(- (Var 0 * (Num (-83143#10000) * (Site 0 * Log 0 + Site 1 * Log 1)))) + (Num (1#1) - Site 0) * (Num (83143#10000) * Var 0 * (Log 0 - Log 1));
    (- (Var 0 * (Num (-83143#10000) * (Site 0 * Log 0 + Site 1 * Log 1)))) + (- Site 0) * (Num (83143#10000) * Var 0 * (Log 0 - Log 1))].
(** sources/ilmenite.c 356-438: actIlm, output a[i] is exp of *)
Definition Ilm_aArg :=
  [((- (Var 0 * (Num (-83143#10000) * (Site 0 * Log 0 + Site 1 * Log 1)))) + (Num (1#1) - Site 0) * (Num (83143#10000) * Var 0 * (Log 0 - Log 1))) / (Num (83143#10000) * Var 0);
    ((- (Var 0 * (Num (-83143#10000) * (Site 0 * Log 0 + Site 1 * Log 1)))) + (- Site 0) * (Num (83143#10000) * Var 0 * (Log 0 - Log 1))) / (Num (83143#10000) * Var 0)].
(** sources/ilmenite.c 356-438: actIlm, output dx[i][k] is a[i] times *)
Definition Ilm_aDx :=
  [[(Num (1#1) - Site 0) * (Num (83143#10000) * Var 0 * (Num (1#1) / Site 0 + Num (1#1) / Site 1)) / (Num (83143#10000) * Var 0)];
    [(- Site 0) * (Num (83143#10000) * Var 0 * (Num (1#1) / Site 0 + Num (1#1) / Site 1)) / (Num (83143#10000) * Var 0)]].
(** the site fractions of sources/ilmenite.c (first lines of each function); clamped: (x > DBL_EPSILON) ? x : DBL_EPSILON;
    unclamped: an argument of log or a denominator that the code does not guard *)
Definition Ilm_sites : list site :=
  [mkSite (Var 2) Low;
   mkSite (Num (1#1) - Var 2) Low].
Definition Ilm : phase :=
  mkPhase "ilmenite" 2 1 conIlm Ilm_sites Ilm_g0 Ilm_g1 Ilm_g2 Ilm_g3 Ilm_h0 Ilm_s0 Ilm_s1 Ilm_s2 Ilm_c0 Ilm_ct Ilm_c1
    Ilm_v0 Ilm_v1 Ilm_v2 Ilm_vt Ilm_vp Ilm_vtt Ilm_vtp Ilm_vpp Ilm_v1t Ilm_v1p Ilm_mu Ilm_aArg Ilm_aDx.

(** sources/alloy-liquid.c 450-492: gmixAlL, output *gmix *)
Definition AlL_g0 :=
  Site 0 * Site 1 * (Num (-17769#1) + Num (-8942#1) * (Site 0 - Site 1) + Num (-1460#1) * (Site 0 - Site 1) * (Site 0 - Site 1)) - Var 0 * (Num (-83143#10000) * (Site 0 * Log 0 + Site 1 * Log 1) + Site 0 * Site 1 * (Num (-20969#5000) + Num (-4241#1250) * (Site 0 - Site 1) + Num (-3903#5000) * (Site 0 - Site 1) * (Site 0 - Site 1))).
(** sources/alloy-liquid.c 450-492: gmixAlL, output dx[i] *)
Definition AlL_g1 :=
  [Num (83143#10000) * Var 0 * (Log 0 - Log 1) + (Site 1 - Site 0) * (Num (-17769#1) - Var 0 * Num (-20969#5000) + (Num (-8942#1) - Var 0 * Num (-4241#1250)) * (Site 0 - Site 1) + (Num (-1460#1) - Var 0 * Num (-3903#5000)) * (Site 0 - Site 1) * (Site 0 - Site 1)) + Site 1 * Site 0 * (Num (2#1) * (Num (-8942#1) - Var 0 * Num (-4241#1250)) + Num (4#1) * (Num (-1460#1) - Var 0 * Num (-3903#5000)) * (Site 0 - Site 1))].
(** sources/alloy-liquid.c 450-492: gmixAlL, output dx2[i][j] *)
Definition AlL_g2 :=
  [[Num (83143#10000) * Var 0 * (Num (1#1) / Site 0 + Num (1#1) / Site 1) - Num (2#1) * (Num (-17769#1) - Var 0 * Num (-20969#5000) + (Num (-8942#1) - Var 0 * Num (-4241#1250)) * (Site 0 - Site 1) + (Num (-1460#1) - Var 0 * Num (-3903#5000)) * (Site 0 - Site 1) * (Site 0 - Site 1)) + Num (2#1) * (Site 1 - Site 0) * (Num (2#1) * (Num (-8942#1) - Var 0 * Num (-4241#1250)) + Num (4#1) * (Num (-1460#1) - Var 0 * Num (-3903#5000)) * (Site 0 - Site 1)) + Site 1 * Site 0 * (Num (8#1) * (Num (-1460#1) - Var 0 * Num (-3903#5000)))]].
(** sources/alloy-liquid.c 450-492: gmixAlL, output dx3[i][j][k] *)
Definition AlL_g3 :=
  [[[Num (83143#10000) * Var 0 * (Num (1#1) / (Site 1 * Site 1) - Num (1#1) / (Site 0 * Site 0)) - Num (6#1) * (Num (2#1) * (Num (-8942#1) - Var 0 * Num (-4241#1250)) + Num (4#1) * (Num (-1460#1) - Var 0 * Num (-3903#5000)) * (Site 0 - Site 1)) + Num (2#1) * (Site 1 - Site 0) * (Num (8#1) * (Num (-1460#1) - Var 0 * Num (-3903#5000))) + (Site 1 - Site 0) * (Num (8#1) * (Num (-1460#1) - Var 0 * Num (-3903#5000)))]]].
(** sources/alloy-liquid.c 495-503: hmixAlL, output *hmix *)
Definition AlL_h0 :=
  Site 0 * Site 1 * (Num (-17769#1) + Num (-8942#1) * (Site 0 - Site 1) + Num (-1460#1) * (Site 0 - Site 1) * (Site 0 - Site 1)) - Var 0 * (Num (-83143#10000) * (Site 0 * Log 0 + Site 1 * Log 1) + Site 0 * Site 1 * (Num (-20969#5000) + Num (-4241#1250) * (Site 0 - Site 1) + Num (-3903#5000) * (Site 0 - Site 1) * (Site 0 - Site 1))) + Var 0 * (Num (-83143#10000) * (Site 0 * Log 0 + Site 1 * Log 1) + Site 0 * Site 1 * (Num (-20969#5000) + Num (-4241#1250) * (Site 0 - Site 1) + Num (-3903#5000) * (Site 0 - Site 1) * (Site 0 - Site 1))).
(** sources/alloy-liquid.c 506-539: smixAlL, output *smix *)
Definition AlL_s0 :=
  Num (-83143#10000) * (Site 0 * Log 0 + Site 1 * Log 1) + Site 0 * Site 1 * (Num (-20969#5000) + Num (-4241#1250) * (Site 0 - Site 1) + Num (-3903#5000) * (Site 0 - Site 1) * (Site 0 - Site 1)).
(** sources/alloy-liquid.c 506-539: smixAlL, output dx[i] *)
Definition AlL_s1 :=
  [(- (Num (83143#10000) * (Log 0 - Log 1) - (Site 1 - Site 0) * (Num (-20969#5000) + Num (-4241#1250) * (Site 0 - Site 1) + Num (-3903#5000) * (Site 0 - Site 1) * (Site 0 - Site 1)) - Site 1 * Site 0 * (Num (-4241#625) + Num (-3903#1250) * (Site 0 - Site 1))))].
(** sources/alloy-liquid.c 506-539: smixAlL, output dx2[i][j] *)
Definition AlL_s2 :=
  [[(- (Num (83143#10000) * (Num (1#1) / Site 0 + Num (1#1) / Site 1) + Num (2#1) * (Num (-20969#5000) + Num (-4241#1250) * (Site 0 - Site 1) + Num (-3903#5000) * (Site 0 - Site 1) * (Site 0 - Site 1)) - Num (2#1) * (Site 1 - Site 0) * (Num (-4241#625) + Num (-3903#1250) * (Site 0 - Site 1)) - Site 1 * Site 0 * Num (-3903#625)))]].
(** sources/alloy-liquid.c 542-569: cpmixAlL, output *cpmix *)
Definition AlL_c0 :=
  Num (0#1).
(** sources/alloy-liquid.c 542-569: cpmixAlL, output *dt *)
Definition AlL_ct :=
  Num (0#1).
(** sources/alloy-liquid.c 542-569: cpmixAlL, output dx[i] *)
Definition AlL_c1 :=
  [Num (0#1)].
(** sources/alloy-liquid.c 572-647: vmixAlL, output *vmix *)
Definition AlL_v0 :=
  Num (0#1).
(** sources/alloy-liquid.c 572-647: vmixAlL, output dx[i] *)
Definition AlL_v1 :=
  [Num (0#1)].
(** sources/alloy-liquid.c 572-647: vmixAlL, output dx2[i][j] *)
Definition AlL_v2 :=
  [[Num (0#1)]].
(** sources/alloy-liquid.c 572-647: vmixAlL, output *dt *)
Definition AlL_vt :=
  Num (0#1).
(** sources/alloy-liquid.c 572-647: vmixAlL, output *dp *)
Definition AlL_vp :=
  Num (0#1).
(** sources/alloy-liquid.c 572-647: vmixAlL, output *dt2 *)
Definition AlL_vtt :=
  Num (0#1).
(** sources/alloy-liquid.c 572-647: vmixAlL, output *dtdp *)
Definition AlL_vtp :=
  Num (0#1).
(** sources/alloy-liquid.c 572-647: vmixAlL, output *dp2 *)
Definition AlL_vpp :=
  Num (0#1).
(** sources/alloy-liquid.c 572-647: vmixAlL, output dxdt[i] *)
Definition AlL_v1t :=
  [Num (0#1)].
(** sources/alloy-liquid.c 572-647: vmixAlL, output dxdp[i] *)
Definition AlL_v1p :=
  [Num (0#1)].
(** sources/alloy-liquid.c 369-447: actAlL, output mu[i] *)
Definition AlL_mu :=
  [Site 0 * Site 1 * (Num (-17769#1) + Num (-8942#1) * (Site 0 - Site 1) + Num (-1460#1) * (Site 0 - Site 1) * (Site 0 - Site 1)) - Var 0 * (Num (-83143#10000) * (Site 0 * Log 0 + Site 1 * Log 1) + Site 0 * Site 1 * (Num (-20969#5000) + Num (-4241#1250) * (Site 0 - Site 1) + Num (-3903#5000) * (Site 0 - Site 1) * (Site 0 - Site 1))) + (- Site 0) * (Num (83143#10000) * Var 0 * (Log 0 - Log 1) + (Site 1 - Site 0) * (Num (-17769#1) - Var 0 * Num (-20969#5000) + (Num (-8942#1) - Var 0 * Num (-4241#1250)) * (Site 0 - Site 1) + (Num (-1460#1) - Var 0 * Num (-3903#5000)) * (Site 0 - Site 1) * (Site 0 - Site 1)) + Site 1 * Site 0 * (Num (2#1) * (Num (-8942#1) - Var 0 * Num (-4241#1250)) + Num (4#1) * (Num (-1460#1) - Var 0 * Num (-3903#5000)) * (Site 0 - Site 1)));
    Site 0 * Site 1 * (Num (-17769#1) + Num (-8942#1) * (Site 0 - Site 1) + Num (-1460#1) * (Site 0 - Site 1) * (Site 0 - Site 1)) - Var 0 * (Num (-83143#10000) * (Site 0 * Log 0 + Site 1 * Log 1) + Site 0 * Site 1 * (Num (-20969#5000) + Num (-4241#1250) * (Site 0 - Site 1) + Num (-3903#5000) * (Site 0 - Site 1) * (Site 0 - Site 1))) + (Num (1#1) - Site 0) * (Num (83143#10000) * Var 0 * (Log 0 - Log 1) + (Site 1 - Site 0) * (Num (-17769#1) - Var 0 * Num (-20969#5000) + (Num (-8942#1) - Var 0 * Num (-4241#1250)) * (Site 0 - Site 1) + (Num (-1460#1) - Var 0 * Num (-3903#5000)) * (Site 0 - Site 1) * (Site 0 - Site 1)) + Site 1 * Site 0 * (Num (2#1) * (Num (-8942#1) - Var 0 * Num (-4241#1250)) + Num (4#1) * (Num (-1460#1) - Var 0 * Num (-3903#5000)) * (Site 0 - Site 1)))].
(** sources/alloy-liquid.c 369-447: actAlL, output a[i] is exp of *)
Definition AlL_aArg :=
  [(Site 0 * Site 1 * (Num (-17769#1) + Num (-8942#1) * (Site 0 - Site 1) + Num (-1460#1) * (Site 0 - Site 1) * (Site 0 - Site 1)) - Var 0 * (Num (-83143#10000) * (Site 0 * Log 0 + Site 1 * Log 1) + Site 0 * Site 1 * (Num (-20969#5000) + Num (-4241#1250) * (Site 0 - Site 1) + Num (-3903#5000) * (Site 0 - Site 1) * (Site 0 - Site 1))) + (- Site 0) * (Num (83143#10000) * Var 0 * (Log 0 - Log 1) + (Site 1 - Site 0) * (Num (-17769#1) - Var 0 * Num (-20969#5000) + (Num (-8942#1) - Var 0 * Num (-4241#1250)) * (Site 0 - Site 1) + (Num (-1460#1) - Var 0 * Num (-3903#5000)) * (Site 0 - Site 1) * (Site 0 - Site 1)) + Site 1 * Site 0 * (Num (2#1) * (Num (-8942#1) - Var 0 * Num (-4241#1250)) + Num (4#1) * (Num (-1460#1) - Var 0 * Num (-3903#5000)) * (Site 0 - Site 1)))) / (Num (83143#10000) * Var 0);
    (Site 0 * Site 1 * (Num (-17769#1) + Num (-8942#1) * (Site 0 - Site 1) + Num (-1460#1) * (Site 0 - Site 1) * (Site 0 - Site 1)) - Var 0 * (Num (-83143#10000) * (Site 0 * Log 0 + Site 1 * Log 1) + Site 0 * Site 1 * (Num (-20969#5000) + Num (-4241#1250) * (Site 0 - Site 1) + Num (-3903#5000) * (Site 0 - Site 1) * (Site 0 - Site 1))) + (Num (1#1) - Site 0) * (Num (83143#10000) * Var 0 * (Log 0 - Log 1) + (Site 1 - Site 0) * (Num (-17769#1) - Var 0 * Num (-20969#5000) + (Num (-8942#1) - Var 0 * Num (-4241#1250)) * (Site 0 - Site 1) + (Num (-1460#1) - Var 0 * Num (-3903#5000)) * (Site 0 - Site 1) * (Site 0 - Site 1)) + Site 1 * Site 0 * (Num (2#1) * (Num (-8942#1) - Var 0 * Num (-4241#1250)) + Num (4#1) * (Num (-1460#1) - Var 0 * Num (-3903#5000)) * (Site 0 - Site 1)))) / (Num (83143#10000) * Var 0)].
(** sources/alloy-liquid.c 369-447: actAlL, output dx[i][k] is a[i] times *)
Definition AlL_aDx :=
  [[(- Site 0) * (Num (83143#10000) * Var 0 * (Num (1#1) / Site 0 + Num (1#1) / Site 1) - Num (2#1) * (Num (-17769#1) - Var 0 * Num (-20969#5000) + (Num (-8942#1) - Var 0 * Num (-4241#1250)) * (Site 0 - Site 1) + (Num (-1460#1) - Var 0 * Num (-3903#5000)) * (Site 0 - Site 1) * (Site 0 - Site 1)) + Num (2#1) * (Site 1 - Site 0) * (Num (2#1) * (Num (-8942#1) - Var 0 * Num (-4241#1250)) + Num (4#1) * (Num (-1460#1) - Var 0 * Num (-3903#5000)) * (Site 0 - Site 1)) + Site 1 * Site 0 * (Num (8#1) * (Num (-1460#1) - Var 0 * Num (-3903#5000)))) / (Num (83143#10000) * Var 0)];
    [(Num (1#1) - Site 0) * (Num (83143#10000) * Var 0 * (Num (1#1) / Site 0 + Num (1#1) / Site 1) - Num (2#1) * (Num (-17769#1) - Var 0 * Num (-20969#5000) + (Num (-8942#1) - Var 0 * Num (-4241#1250)) * (Site 0 - Site 1) + (Num (-1460#1) - Var 0 * Num (-3903#5000)) * (Site 0 - Site 1) * (Site 0 - Site 1)) + Num (2#1) * (Site 1 - Site 0) * (Num (2#1) * (Num (-8942#1) - Var 0 * Num (-4241#1250)) + Num (4#1) * (Num (-1460#1) - Var 0 * Num (-3903#5000)) * (Site 0 - Site 1)) + Site 1 * Site 0 * (Num (8#1) * (Num (-1460#1) - Var 0 * Num (-3903#5000)))) / (Num (83143#10000) * Var 0)]].
(** the site fractions of sources/alloy-liquid.c (first lines of each function); clamped: (x > DBL_EPSILON) ? x : DBL_EPSILON;
    unclamped: an argument of log or a denominator that the code does not guard *)
Definition AlL_sites : list site :=
  [mkSite (Var 2) Low;
   mkSite (Num (1#1) - Var 2) Low].
Definition AlL : phase :=
  mkPhase "alloy-liquid" 2 1 conAlL AlL_sites AlL_g0 AlL_g1 AlL_g2 AlL_g3 AlL_h0 AlL_s0 AlL_s1 AlL_s2 AlL_c0 AlL_ct AlL_c1
    AlL_v0 AlL_v1 AlL_v2 AlL_vt AlL_vp AlL_vtt AlL_vtp AlL_vpp AlL_v1t AlL_v1p AlL_mu AlL_aArg AlL_aDx.

(** sources/alloy-solid.c 459-501: gmixAlS, output *gmix *)
Definition AlS_g0 :=
  Site 0 * Site 1 * (Num (-14441#1) + Num (-9182#1) * (Site 0 - Site 1) + Num (-1520#1) * (Site 0 - Site 1) * (Site 0 - Site 1)) - Var 0 * (Num (-83143#10000) * (Site 0 * Log 0 + Site 1 * Log 1) + Site 0 * Site 1 * (Num (-1631#500) + Num (-9141#2500) * (Site 0 - Site 1) + Num (-7049#5000) * (Site 0 - Site 1) * (Site 0 - Site 1))).
(** sources/alloy-solid.c 459-501: gmixAlS, output dx[i] *)
Definition AlS_g1 :=
  [Num (83143#10000) * Var 0 * (Log 0 - Log 1) + (Site 1 - Site 0) * (Num (-14441#1) - Var 0 * Num (-1631#500) + (Num (-9182#1) - Var 0 * Num (-9141#2500)) * (Site 0 - Site 1) + (Num (-1520#1) - Var 0 * Num (-7049#5000)) * (Site 0 - Site 1) * (Site 0 - Site 1)) + Site 1 * Site 0 * (Num (2#1) * (Num (-9182#1) - Var 0 * Num (-9141#2500)) + Num (4#1) * (Num (-1520#1) - Var 0 * Num (-7049#5000)) * (Site 0 - Site 1))].
(** sources/alloy-solid.c 459-501: gmixAlS, output dx2[i][j] *)
Definition AlS_g2 :=
  [[Num (83143#10000) * Var 0 * (Num (1#1) / Site 0 + Num (1#1) / Site 1) - Num (2#1) * (Num (-14441#1) - Var 0 * Num (-1631#500) + (Num (-9182#1) - Var 0 * Num (-9141#2500)) * (Site 0 - Site 1) + (Num (-1520#1) - Var 0 * Num (-7049#5000)) * (Site 0 - Site 1) * (Site 0 - Site 1)) + Num (2#1) * (Site 1 - Site 0) * (Num (2#1) * (Num (-9182#1) - Var 0 * Num (-9141#2500)) + Num (4#1) * (Num (-1520#1) - Var 0 * Num (-7049#5000)) * (Site 0 - Site 1)) + Site 1 * Site 0 * (Num (8#1) * (Num (-1520#1) - Var 0 * Num (-7049#5000)))]].
(** sources/alloy-solid.c 459-501: gmixAlS, output dx3[i][j][k] *)
Definition AlS_g3 :=
  [[[Num (83143#10000) * Var 0 * (Num (1#1) / (Site 1 * Site 1) - Num (1#1) / (Site 0 * Site 0)) - Num (6#1) * (Num (2#1) * (Num (-9182#1) - Var 0 * Num (-9141#2500)) + Num (4#1) * (Num (-1520#1) - Var 0 * Num (-7049#5000)) * (Site 0 - Site 1)) + Num (2#1) * (Site 1 - Site 0) * (Num (8#1) * (Num (-1520#1) - Var 0 * Num (-7049#5000))) + (Site 1 - Site 0) * (Num (8#1) * (Num (-1520#1) - Var 0 * Num (-7049#5000)))]]].
(** sources/alloy-solid.c 504-512: hmixAlS, output *hmix *)
Definition AlS_h0 :=
  Site 0 * Site 1 * (Num (-14441#1) + Num (-9182#1) * (Site 0 - Site 1) + Num (-1520#1) * (Site 0 - Site 1) * (Site 0 - Site 1)) - Var 0 * (Num (-83143#10000) * (Site 0 * Log 0 + Site 1 * Log 1) + Site 0 * Site 1 * (Num (-1631#500) + Num (-9141#2500) * (Site 0 - Site 1) + Num (-7049#5000) * (Site 0 - Site 1) * (Site 0 - Site 1))) + Var 0 * (Num (-83143#10000) * (Site 0 * Log 0 + Site 1 * Log 1) + Site 0 * Site 1 * (Num (-1631#500) + Num (-9141#2500) * (Site 0 - Site 1) + Num (-7049#5000) * (Site 0 - Site 1) * (Site 0 - Site 1))).
(** sources/alloy-solid.c 515-548: smixAlS, output *smix *)
Definition AlS_s0 :=
  Num (-83143#10000) * (Site 0 * Log 0 + Site 1 * Log 1) + Site 0 * Site 1 * (Num (-1631#500) + Num (-9141#2500) * (Site 0 - Site 1) + Num (-7049#5000) * (Site 0 - Site 1) * (Site 0 - Site 1)).
(** sources/alloy-solid.c 515-548: smixAlS, output dx[i] *)
Definition AlS_s1 :=
  [(- (Num (83143#10000) * (Log 0 - Log 1) - (Site 1 - Site 0) * (Num (-1631#500) + Num (-9141#2500) * (Site 0 - Site 1) + Num (-7049#5000) * (Site 0 - Site 1) * (Site 0 - Site 1)) - Site 1 * Site 0 * (Num (-9141#1250) + Num (-7049#1250) * (Site 0 - Site 1))))].
(** sources/alloy-solid.c 515-548: smixAlS, output dx2[i][j] *)
Definition AlS_s2 :=
  [[(- (Num (83143#10000) * (Num (1#1) / Site 0 + Num (1#1) / Site 1) + Num (2#1) * (Num (-1631#500) + Num (-9141#2500) * (Site 0 - Site 1) + Num (-7049#5000) * (Site 0 - Site 1) * (Site 0 - Site 1)) - Num (2#1) * (Site 1 - Site 0) * (Num (-9141#1250) + Num (-7049#1250) * (Site 0 - Site 1)) - Site 1 * Site 0 * Num (-7049#625)))]].
(** sources/alloy-solid.c 551-578: cpmixAlS, output *cpmix *)
Definition AlS_c0 :=
  Num (0#1).
(** sources/alloy-solid.c 551-578: cpmixAlS, output *dt *)
Definition AlS_ct :=
  Num (0#1).
(** sources/alloy-solid.c 551-578: cpmixAlS, output dx[i] *)
Definition AlS_c1 :=
  [Num (0#1)].
(** sources/alloy-solid.c 581-656: vmixAlS, output *vmix *)
Definition AlS_v0 :=
  Num (0#1).
(** sources/alloy-solid.c 581-656: vmixAlS, output dx[i] *)
Definition AlS_v1 :=
  [Num (0#1)].
(** sources/alloy-solid.c 581-656: vmixAlS, output dx2[i][j] *)
Definition AlS_v2 :=
  [[Num (0#1)]].
(** sources/alloy-solid.c 581-656: vmixAlS, output *dt *)
Definition AlS_vt :=
  Num (0#1).
(** sources/alloy-solid.c 581-656: vmixAlS, output *dp *)
Definition AlS_vp :=
  Num (0#1).
(** sources/alloy-solid.c 581-656: vmixAlS, output *dt2 *)
Definition AlS_vtt :=
  Num (0#1).
(** sources/alloy-solid.c 581-656: vmixAlS, output *dtdp *)
Definition AlS_vtp :=
  Num (0#1).
(** sources/alloy-solid.c 581-656: vmixAlS, output *dp2 *)
Definition AlS_vpp :=
  Num (0#1).
(** sources/alloy-solid.c 581-656: vmixAlS, output dxdt[i] *)
Definition AlS_v1t :=
  [Num (0#1)].
(** sources/alloy-solid.c 581-656: vmixAlS, output dxdp[i] *)
Definition AlS_v1p :=
  [Num (0#1)].
(** sources/alloy-solid.c 378-456: actAlS, output mu[i] *)
Definition AlS_mu :=
  [Site 0 * Site 1 * (Num (-14441#1) + Num (-9182#1) * (Site 0 - Site 1) + Num (-1520#1) * (Site 0 - Site 1) * (Site 0 - Site 1)) - Var 0 * (Num (-83143#10000) * (Site 0 * Log 0 + Site 1 * Log 1) + Site 0 * Site 1 * (Num (-1631#500) + Num (-9141#2500) * (Site 0 - Site 1) + Num (-7049#5000) * (Site 0 - Site 1) * (Site 0 - Site 1))) + (- Site 0) * (Num (83143#10000) * Var 0 * (Log 0 - Log 1) + (Site 1 - Site 0) * (Num (-14441#1) - Var 0 * Num (-1631#500) + (Num (-9182#1) - Var 0 * Num (-9141#2500)) * (Site 0 - Site 1) + (Num (-1520#1) - Var 0 * Num (-7049#5000)) * (Site 0 - Site 1) * (Site 0 - Site 1)) + Site 1 * Site 0 * (Num (2#1) * (Num (-9182#1) - Var 0 * Num (-9141#2500)) + Num (4#1) * (Num (-1520#1) - Var 0 * Num (-7049#5000)) * (Site 0 - Site 1)));
    Site 0 * Site 1 * (Num (-14441#1) + Num (-9182#1) * (Site 0 - Site 1) + Num (-1520#1) * (Site 0 - Site 1) * (Site 0 - Site 1)) - Var 0 * (Num (-83143#10000) * (Site 0 * Log 0 + Site 1 * Log 1) + Site 0 * Site 1 * (Num (-1631#500) + Num (-9141#2500) * (Site 0 - Site 1) + Num (-7049#5000) * (Site 0 - Site 1) * (Site 0 - Site 1))) + (Num (1#1) - Site 0) * (Num (83143#10000) * Var 0 * (Log 0 - Log 1) + (Site 1 - Site 0) * (Num (-14441#1) - Var 0 * Num (-1631#500) + (Num (-9182#1) - Var 0 * Num (-9141#2500)) * (Site 0 - Site 1) + (Num (-1520#1) - Var 0 * Num (-7049#5000)) * (Site 0 - Site 1) * (Site 0 - Site 1)) + Site 1 * Site 0 * (Num (2#1) * (Num (-9182#1) - Var 0 * Num (-9141#2500)) + Num (4#1) * (Num (-1520#1) - Var 0 * Num (-7049#5000)) * (Site 0 - Site 1)))].
(** sources/alloy-solid.c 378-456: actAlS, output a[i] is exp of *)
Definition AlS_aArg :=
  [(Site 0 * Site 1 * (Num (-14441#1) + Num (-9182#1) * (Site 0 - Site 1) + Num (-1520#1) * (Site 0 - Site 1) * (Site 0 - Site 1)) - Var 0 * (Num (-83143#10000) * (Site 0 * Log 0 + Site 1 * Log 1) + Site 0 * Site 1 * (Num (-1631#500) + Num (-9141#2500) * (Site 0 - Site 1) + Num (-7049#5000) * (Site 0 - Site 1) * (Site 0 - Site 1))) + (- Site 0) * (Num (83143#10000) * Var 0 * (Log 0 - Log 1) + (Site 1 - Site 0) * (Num (-14441#1) - Var 0 * Num (-1631#500) + (Num (-9182#1) - Var 0 * Num (-9141#2500)) * (Site 0 - Site 1) + (Num (-1520#1) - Var 0 * Num (-7049#5000)) * (Site 0 - Site 1) * (Site 0 - Site 1)) + Site 1 * Site 0 * (Num (2#1) * (Num (-9182#1) - Var 0 * Num (-9141#2500)) + Num (4#1) * (Num (-1520#1) - Var 0 * Num (-7049#5000)) * (Site 0 - Site 1)))) / (Num (83143#10000) * Var 0);
    (Site 0 * Site 1 * (Num (-14441#1) + Num (-9182#1) * (Site 0 - Site 1) + Num (-1520#1) * (Site 0 - Site 1) * (Site 0 - Site 1)) - Var 0 * (Num (-83143#10000) * (Site 0 * Log 0 + Site 1 * Log 1) + Site 0 * Site 1 * (Num (-1631#500) + Num (-9141#2500) * (Site 0 - Site 1) + Num (-7049#5000) * (Site 0 - Site 1) * (Site 0 - Site 1))) + (Num (1#1) - Site 0) * (Num (83143#10000) * Var 0 * (Log 0 - Log 1) + (Site 1 - Site 0) * (Num (-14441#1) - Var 0 * Num (-1631#500) + (Num (-9182#1) - Var 0 * Num (-9141#2500)) * (Site 0 - Site 1) + (Num (-1520#1) - Var 0 * Num (-7049#5000)) * (Site 0 - Site 1) * (Site 0 - Site 1)) + Site 1 * Site 0 * (Num (2#1) * (Num (-9182#1) - Var 0 * Num (-9141#2500)) + Num (4#1) * (Num (-1520#1) - Var 0 * Num (-7049#5000)) * (Site 0 - Site 1)))) / (Num (83143#10000) * Var 0)].
(** sources/alloy-solid.c 378-456: actAlS, output dx[i][k] is a[i] times *)
Definition AlS_aDx :=
  [[(- Site 0) * (Num (83143#10000) * Var 0 * (Num (1#1) / Site 0 + Num (1#1) / Site 1) - Num (2#1) * (Num (-14441#1) - Var 0 * Num (-1631#500) + (Num (-9182#1) - Var 0 * Num (-9141#2500)) * (Site 0 - Site 1) + (Num (-1520#1) - Var 0 * Num (-7049#5000)) * (Site 0 - Site 1) * (Site 0 - Site 1)) + Num (2#1) * (Site 1 - Site 0) * (Num (2#1) * (Num (-9182#1) - Var 0 * Num (-9141#2500)) + Num (4#1) * (Num (-1520#1) - Var 0 * Num (-7049#5000)) * (Site 0 - Site 1)) + Site 1 * Site 0 * (Num (8#1) * (Num (-1520#1) - Var 0 * Num (-7049#5000)))) / (Num (83143#10000) * Var 0)];
    [(Num (1#1) - Site 0) * (Num (83143#10000) * Var 0 * (Num (1#1) / Site 0 + Num (1#1) / Site 1) - Num (2#1) * (Num (-14441#1) - Var 0 * Num (-1631#500) + (Num (-9182#1) - Var 0 * Num (-9141#2500)) * (Site 0 - Site 1) + (Num (-1520#1) - Var 0 * Num (-7049#5000)) * (Site 0 - Site 1) * (Site 0 - Site 1)) + Num (2#1) * (Site 1 - Site 0) * (Num (2#1) * (Num (-9182#1) - Var 0 * Num (-9141#2500)) + Num (4#1) * (Num (-1520#1) - Var 0 * Num (-7049#5000)) * (Site 0 - Site 1)) + Site 1 * Site 0 * (Num (8#1) * (Num (-1520#1) - Var 0 * Num (-7049#5000)))) / (Num (83143#10000) * Var 0)]].
(** the site fractions of sources/alloy-solid.c (first lines of each function); clamped: (x > DBL_EPSILON) ? x : DBL_EPSILON;
    unclamped: an argument of log or a denominator that the code does not guard *)
Definition AlS_sites : list site :=
  [mkSite (Var 2) Low;
   mkSite (Num (1#1) - Var 2) Low].
Definition AlS : phase :=
  mkPhase "alloy-solid" 2 1 conAlS AlS_sites AlS_g0 AlS_g1 AlS_g2 AlS_g3 AlS_h0 AlS_s0 AlS_s1 AlS_s2 AlS_c0 AlS_ct AlS_c1
    AlS_v0 AlS_v1 AlS_v2 AlS_vt AlS_vp AlS_vtt AlS_vtp AlS_vpp AlS_v1t AlS_v1p AlS_mu AlS_aArg AlS_aDx.

(** sources/kalsilite.c 748-796: gmixKal, output *gmix *)
Definition Kal_g0 :=
  Num (3214567#100) * (Num (1#1) - Var 2 - Var 3 - Var 4) + Num (-28242#5) * Var 2 + Num (14644#1) * Var 3 + Num (35184#1) * Var 4 + Num (29288#1) * Var 2 * (Num (1#1) - Var 2 - Var 3 - Var 4) + Num (14646#1) * Var 3 * (Num (1#1) - Var 2 - Var 3 - Var 4) + Num (30334#1) * Var 2 * Var 3 + Num (14644#1) * Var 2 * Var 4 - Var 0 * (Num (523#50) * (Num (1#1) - Var 2 - Var 3 - Var 4) + Num (-187#10) * Var 3 + Num (-46093#2000) * Var 4 - Num (83143#2500) * (Site 0 * Log 0 + (Site 1 - Site 2) * Log 3 + Site 4 * Log 4 + Site 2 * Log 2)) + (Var 1 - Num (1#1)) * (Num (-1#25) * Var 2) + Num (1#67108864) / Site 5.
(** sources/kalsilite.c 748-796: gmixKal, output dx[i] *)
Definition Kal_g1 :=
  [(- (Num (3214567#100) - Var 0 * Num (523#50))) + (Num (-28242#5) + (Var 1 - Num (1#1)) * Num (-1#25)) + Num (83143#10000) * Var 0 * Num (4#1) * (Log 0 - Log 4) + Num (29288#1) * (Num (1#1) - Num (2#1) * Var 2 - Var 3 - Var 4) - Num (14646#1) * Var 3 + Num (30334#1) * Var 3 + Num (14644#1) * Var 4;
    (- (Num (3214567#100) - Var 0 * Num (523#50))) + (Num (14644#1) - Var 0 * Num (-187#10)) + Num (83143#10000) * Var 0 * (Log 3 - Log 4) - Num (29288#1) * Var 2 + Num (14646#1) * (Num (1#1) - Var 2 - Num (2#1) * Var 3 - Var 4) + Num (30334#1) * Var 2 - Num (1#67108864) / (Site 5 * Site 5);
    (- (Num (3214567#100) - Var 0 * Num (523#50))) + (Num (35184#1) - Var 0 * Num (-717#100)) + (- Var 0) * Num (-31753#2000) + Num (83143#10000) * Var 0 * (Log 2 - Num (2#1) * Log 4 - Num (1#1)) - Num (29288#1) * Var 2 - Num (14646#1) * Var 3 + Num (14644#1) * Var 2].
(** sources/kalsilite.c 748-796: gmixKal, output dx2[i][j] *)
Definition Kal_g2 :=
  [[Num (83143#10000) * Var 0 * Num (4#1) * (Num (1#1) / Site 0 + Num (1#1) / Site 4) - Num (58576#1);
    Num (83143#10000) * Var 0 / Site 4 - Num (29288#1) + Num (30334#1) - Num (14646#1);
    Num (83143#10000) * Var 0 * Num (2#1) / Site 4 - Num (29288#1) + Num (14644#1)];
    [Num (83143#10000) * Var 0 / Site 4 - Num (29288#1) + Num (30334#1) - Num (14646#1);
    Num (83143#10000) * Var 0 * Num (1#4) * (Num (1#1) / Site 3 + Num (1#1) / Site 4) - Num (29292#1) + Num (1#33554432) / (Site 5 * Site 5 * Site 5);
    Num (83143#10000) * Var 0 * (Num (1#2) / Site 4) - Num (14646#1)];
    [Num (83143#10000) * Var 0 * Num (2#1) / Site 4 - Num (29288#1) + Num (14644#1);
    Num (83143#10000) * Var 0 * (Num (1#2) / Site 4) - Num (14646#1);
    Num (83143#10000) * Var 0 * (Num (1#4) / Site 2 + Num (1#1) / Site 4)]].
(** sources/kalsilite.c 748-796: gmixKal, output dx3[i][j][k] *)
Definition Kal_g3 :=
  [[[Num (-83143#10000) * Var 0 * Num (4#1) * (Num (1#1) / (Site 0 * Site 0) - Num (1#1) / (Site 4 * Site 4));
    Num (83143#10000) * Var 0 / (Site 4 * Site 4);
    Num (83143#10000) * Var 0 * Num (2#1) / (Site 4 * Site 4)];
    [Num (83143#10000) * Var 0 / (Site 4 * Site 4);
    Num (83143#10000) * Var 0 * Num (1#4) / (Site 4 * Site 4);
    Num (83143#10000) * Var 0 * Num (1#2) / (Site 4 * Site 4)];
    [Num (83143#10000) * Var 0 * Num (2#1) / (Site 4 * Site 4);
    Num (83143#10000) * Var 0 * Num (1#2) / (Site 4 * Site 4);
    Num (83143#10000) * Var 0 / (Site 4 * Site 4)]];
    [[Num (83143#10000) * Var 0 / (Site 4 * Site 4);
    Num (83143#10000) * Var 0 * Num (1#4) / (Site 4 * Site 4);
    Num (83143#10000) * Var 0 * Num (1#2) / (Site 4 * Site 4)];
    [Num (83143#10000) * Var 0 * Num (1#4) / (Site 4 * Site 4);
    Num (-83143#10000) * Var 0 * Num (1#4) * Num (1#4) * (Num (1#1) / (Site 3 * Site 3) - Num (1#1) / (Site 4 * Site 4)) - Num (3#33554432) / (Site 5 * Site 5 * Site 5 * Site 5);
    Num (83143#10000) * Var 0 * Num (1#4) * (Num (1#2) / (Site 4 * Site 4))];
    [Num (83143#10000) * Var 0 * Num (1#2) / (Site 4 * Site 4);
    Num (83143#10000) * Var 0 * Num (1#4) * (Num (1#2) / (Site 4 * Site 4));
    Num (83143#10000) * Var 0 * (Num (1#4) / (Site 4 * Site 4))]];
    [[Num (83143#10000) * Var 0 * Num (2#1) / (Site 4 * Site 4);
    Num (83143#10000) * Var 0 * Num (1#2) / (Site 4 * Site 4);
    Num (83143#10000) * Var 0 / (Site 4 * Site 4)];
    [Num (83143#10000) * Var 0 * Num (1#2) / (Site 4 * Site 4);
    Num (83143#10000) * Var 0 * Num (1#4) * (Num (1#2) / (Site 4 * Site 4));
    Num (83143#10000) * Var 0 * (Num (1#4) / (Site 4 * Site 4))];
    [Num (83143#10000) * Var 0 / (Site 4 * Site 4);
    Num (83143#10000) * Var 0 * (Num (1#4) / (Site 4 * Site 4));
    Num (83143#10000) * Var 0 * (Num (-1#16) / (Site 2 * Site 2) + Num (1#2) / (Site 4 * Site 4))]]].
(** sources/kalsilite.c 799-819: hmixKal, output *hmix *)
Definition Kal_h0 :=
  Num (3214567#100) * (Num (1#1) - Var 2 - Var 3 - Var 4) + Num (-28242#5) * Var 2 + Num (14644#1) * Var 3 + Num (35184#1) * Var 4 + Num (29288#1) * Var 2 * (Num (1#1) - Var 2 - Var 3 - Var 4) + Num (14646#1) * Var 3 * (Num (1#1) - Var 2 - Var 3 - Var 4) + Num (30334#1) * Var 2 * Var 3 + Num (14644#1) * Var 2 * Var 4 - Var 0 * (Num (523#50) * (Num (1#1) - Var 2 - Var 3 - Var 4) + Num (-187#10) * Var 3 + Num (-46093#2000) * Var 4 - Num (83143#2500) * (Site 0 * Log 0 + (Site 1 - Site 2) * Log 3 + Site 4 * Log 4 + Site 2 * Log 2)) + (Var 1 - Num (1#1)) * (Num (-1#25) * Var 2) + Num (1#67108864) / Site 5 + Var 0 * (Num (523#50) * (Num (1#1) - Var 2 - Var 3 - Var 4) + Num (-187#10) * Var 3 + Num (-46093#2000) * Var 4 - Num (83143#2500) * (Site 0 * Log 0 + (Site 1 - Site 2) * Log 3 + Site 4 * Log 4 + Site 2 * Log 2)).
(** sources/kalsilite.c 822-864: smixKal, output *smix *)
Definition Kal_s0 :=
  Num (523#50) * (Num (1#1) - Var 2 - Var 3 - Var 4) + Num (-187#10) * Var 3 + Num (-46093#2000) * Var 4 - Num (83143#2500) * (Site 0 * Log 0 + (Site 1 - Site 2) * Log 3 + Site 4 * Log 4 + Site 2 * Log 2).
(** sources/kalsilite.c 822-864: smixKal, output dx[i] *)
Definition Kal_s1 :=
  [(- (Num (523#50) + Num (83143#2500) * (Log 0 - Log 4)));
    (- (Num (729#25) + Num (83143#10000) * (Log 3 - Log 4)));
    (- (Num (67013#2000) + Num (83143#10000) * (Log 2 - Num (2#1) * Log 4 - Num (1#1))))].
(** sources/kalsilite.c 822-864: smixKal, output dx2[i][j] *)
Definition Kal_s2 :=
  [[(- (Num (83143#2500) * (Num (1#1) / Site 0 + Num (1#1) / Site 4)));
    (- (Num (83143#10000) / Site 4));
    (- (Num (83143#5000) / Site 4))];
    [(- (Num (83143#10000) / Site 4));
    (- (Num (83143#40000) * (Num (1#1) / Site 3 + Num (1#1) / Site 4)));
    (- (Num (83143#10000) * (Num (1#2) / Site 4)))];
    [(- (Num (83143#5000) / Site 4));
    (- (Num (83143#10000) * (Num (1#2) / Site 4)));
    (- (Num (83143#10000) * (Num (1#4) / Site 2 + Num (1#1) / Site 4)))]].
(** sources/kalsilite.c 867-909: cpmixKal, output *cpmix *)
Definition Kal_c0 :=
  Num (0#1).
(** sources/kalsilite.c 867-909: cpmixKal, output *dt *)
Definition Kal_ct :=
  Num (0#1).
(** sources/kalsilite.c 867-909: cpmixKal, output dx[i] *)
Definition Kal_c1 :=
  [Num (0#1);
    Num (0#1);
    Num (0#1)].
(** sources/kalsilite.c 912-1006: vmixKal, output *vmix *)
Definition Kal_v0 :=
  Num (-1#25) * Var 2.
(** sources/kalsilite.c 912-1006: vmixKal, output dx[i] *)
Definition Kal_v1 :=
  [Num (-1#25);
    Num (0#1);
    Num (0#1)].
(** sources/kalsilite.c 912-1006: vmixKal, output dx2[i][j] *)
Definition Kal_v2 :=
  [[Num (0#1);
    Num (0#1);
    Num (0#1)];
    [Num (0#1);
    Num (0#1);
    Num (0#1)];
    [Num (0#1);
    Num (0#1);
    Num (0#1)]].
(** sources/kalsilite.c 912-1006: vmixKal, output *dt *)
Definition Kal_vt :=
  Num (0#1).
(** sources/kalsilite.c 912-1006: vmixKal, output *dp *)
Definition Kal_vp :=
  Num (0#1).
(** sources/kalsilite.c 912-1006: vmixKal, output *dt2 *)
Definition Kal_vtt :=
  Num (0#1).
(** sources/kalsilite.c 912-1006: vmixKal, output *dtdp *)
Definition Kal_vtp :=
  Num (0#1).
(** sources/kalsilite.c 912-1006: vmixKal, output *dp2 *)
Definition Kal_vpp :=
  Num (0#1).
(** sources/kalsilite.c 912-1006: vmixKal, output dxdt[i] *)
Definition Kal_v1t :=
  [Num (0#1);
    Num (0#1);
    Num (0#1)].
(** sources/kalsilite.c 912-1006: vmixKal, output dxdp[i] *)
Definition Kal_v1p :=
  [Num (0#1);
    Num (0#1);
    Num (0#1)].
(** sources/kalsilite.c 634-745: actKal, output mu[i] *)
Definition Kal_mu :=
  [Num (3214567#100) * (Num (1#1) - Var 2 - Var 3 - Var 4) + Num (-28242#5) * Var 2 + Num (14644#1) * Var 3 + Num (35184#1) * Var 4 + Num (29288#1) * Var 2 * (Num (1#1) - Var 2 - Var 3 - Var 4) + Num (14646#1) * Var 3 * (Num (1#1) - Var 2 - Var 3 - Var 4) + Num (30334#1) * Var 2 * Var 3 + Num (14644#1) * Var 2 * Var 4 - Var 0 * (Num (523#50) * (Num (1#1) - Var 2 - Var 3 - Var 4) + Num (-187#10) * Var 3 + Num (-46093#2000) * Var 4 - Num (83143#2500) * (Site 0 * Log 0 + (Site 1 - Site 2) * Log 3 + Site 4 * Log 4 + Site 2 * Log 2)) + (Var 1 - Num (1#1)) * (Num (-1#25) * Var 2) + Num (1#67108864) / Site 5 + (- Var 2) * ((- (Num (3214567#100) - Var 0 * Num (523#50))) + (Num (-28242#5) + (Var 1 - Num (1#1)) * Num (-1#25)) + Num (83143#10000) * Var 0 * Num (4#1) * (Log 0 - Log 4) + Num (29288#1) * (Num (1#1) - Num (2#1) * Var 2 - Var 3 - Var 4) - Num (14646#1) * Var 3 + Num (30334#1) * Var 3 + Num (14644#1) * Var 4) + (- Var 3) * ((- (Num (3214567#100) - Var 0 * Num (523#50))) + (Num (14644#1) - Var 0 * Num (-187#10)) + Num (83143#10000) * Var 0 * (Log 3 - Log 4) - Num (29288#1) * Var 2 + Num (14646#1) * (Num (1#1) - Var 2 - Num (2#1) * Var 3 - Var 4) + Num (30334#1) * Var 2 - Num (1#67108864) / (Site 5 * Site 5)) + (- Var 4) * ((- (Num (3214567#100) - Var 0 * Num (523#50))) + (Num (35184#1) - Var 0 * Num (-717#100)) + (- Var 0) * Num (-31753#2000) + Num (83143#10000) * Var 0 * (Log 2 - Num (2#1) * Log 4 - Num (1#1)) - Num (29288#1) * Var 2 - Num (14646#1) * Var 3 + Num (14644#1) * Var 2);
    Num (3214567#100) * (Num (1#1) - Var 2 - Var 3 - Var 4) + Num (-28242#5) * Var 2 + Num (14644#1) * Var 3 + Num (35184#1) * Var 4 + Num (29288#1) * Var 2 * (Num (1#1) - Var 2 - Var 3 - Var 4) + Num (14646#1) * Var 3 * (Num (1#1) - Var 2 - Var 3 - Var 4) + Num (30334#1) * Var 2 * Var 3 + Num (14644#1) * Var 2 * Var 4 - Var 0 * (Num (523#50) * (Num (1#1) - Var 2 - Var 3 - Var 4) + Num (-187#10) * Var 3 + Num (-46093#2000) * Var 4 - Num (83143#2500) * (Site 0 * Log 0 + (Site 1 - Site 2) * Log 3 + Site 4 * Log 4 + Site 2 * Log 2)) + (Var 1 - Num (1#1)) * (Num (-1#25) * Var 2) + Num (1#67108864) / Site 5 + (Num (1#1) - Var 2) * ((- (Num (3214567#100) - Var 0 * Num (523#50))) + (Num (-28242#5) + (Var 1 - Num (1#1)) * Num (-1#25)) + Num (83143#10000) * Var 0 * Num (4#1) * (Log 0 - Log 4) + Num (29288#1) * (Num (1#1) - Num (2#1) * Var 2 - Var 3 - Var 4) - Num (14646#1) * Var 3 + Num (30334#1) * Var 3 + Num (14644#1) * Var 4) + (- Var 3) * ((- (Num (3214567#100) - Var 0 * Num (523#50))) + (Num (14644#1) - Var 0 * Num (-187#10)) + Num (83143#10000) * Var 0 * (Log 3 - Log 4) - Num (29288#1) * Var 2 + Num (14646#1) * (Num (1#1) - Var 2 - Num (2#1) * Var 3 - Var 4) + Num (30334#1) * Var 2 - Num (1#67108864) / (Site 5 * Site 5)) + (- Var 4) * ((- (Num (3214567#100) - Var 0 * Num (523#50))) + (Num (35184#1) - Var 0 * Num (-717#100)) + (- Var 0) * Num (-31753#2000) + Num (83143#10000) * Var 0 * (Log 2 - Num (2#1) * Log 4 - Num (1#1)) - Num (29288#1) * Var 2 - Num (14646#1) * Var 3 + Num (14644#1) * Var 2);
    Num (3214567#100) * (Num (1#1) - Var 2 - Var 3 - Var 4) + Num (-28242#5) * Var 2 + Num (14644#1) * Var 3 + Num (35184#1) * Var 4 + Num (29288#1) * Var 2 * (Num (1#1) - Var 2 - Var 3 - Var 4) + Num (14646#1) * Var 3 * (Num (1#1) - Var 2 - Var 3 - Var 4) + Num (30334#1) * Var 2 * Var 3 + Num (14644#1) * Var 2 * Var 4 - Var 0 * (Num (523#50) * (Num (1#1) - Var 2 - Var 3 - Var 4) + Num (-187#10) * Var 3 + Num (-46093#2000) * Var 4 - Num (83143#2500) * (Site 0 * Log 0 + (Site 1 - Site 2) * Log 3 + Site 4 * Log 4 + Site 2 * Log 2)) + (Var 1 - Num (1#1)) * (Num (-1#25) * Var 2) + Num (1#67108864) / Site 5 + (- Var 2) * ((- (Num (3214567#100) - Var 0 * Num (523#50))) + (Num (-28242#5) + (Var 1 - Num (1#1)) * Num (-1#25)) + Num (83143#10000) * Var 0 * Num (4#1) * (Log 0 - Log 4) + Num (29288#1) * (Num (1#1) - Num (2#1) * Var 2 - Var 3 - Var 4) - Num (14646#1) * Var 3 + Num (30334#1) * Var 3 + Num (14644#1) * Var 4) + (Num (1#1) - Var 3) * ((- (Num (3214567#100) - Var 0 * Num (523#50))) + (Num (14644#1) - Var 0 * Num (-187#10)) + Num (83143#10000) * Var 0 * (Log 3 - Log 4) - Num (29288#1) * Var 2 + Num (14646#1) * (Num (1#1) - Var 2 - Num (2#1) * Var 3 - Var 4) + Num (30334#1) * Var 2 - Num (1#67108864) / (Site 5 * Site 5)) + (- Var 4) * ((- (Num (3214567#100) - Var 0 * Num (523#50))) + (Num (35184#1) - Var 0 * Num (-717#100)) + (- Var 0) * Num (-31753#2000) + Num (83143#10000) * Var 0 * (Log 2 - Num (2#1) * Log 4 - Num (1#1)) - Num (29288#1) * Var 2 - Num (14646#1) * Var 3 + Num (14644#1) * Var 2);
    Num (3214567#100) * (Num (1#1) - Var 2 - Var 3 - Var 4) + Num (-28242#5) * Var 2 + Num (14644#1) * Var 3 + Num (35184#1) * Var 4 + Num (29288#1) * Var 2 * (Num (1#1) - Var 2 - Var 3 - Var 4) + Num (14646#1) * Var 3 * (Num (1#1) - Var 2 - Var 3 - Var 4) + Num (30334#1) * Var 2 * Var 3 + Num (14644#1) * Var 2 * Var 4 - Var 0 * (Num (523#50) * (Num (1#1) - Var 2 - Var 3 - Var 4) + Num (-187#10) * Var 3 + Num (-46093#2000) * Var 4 - Num (83143#2500) * (Site 0 * Log 0 + (Site 1 - Site 2) * Log 3 + Site 4 * Log 4 + Site 2 * Log 2)) + (Var 1 - Num (1#1)) * (Num (-1#25) * Var 2) + Num (1#67108864) / Site 5 + (- Var 2) * ((- (Num (3214567#100) - Var 0 * Num (523#50))) + (Num (-28242#5) + (Var 1 - Num (1#1)) * Num (-1#25)) + Num (83143#10000) * Var 0 * Num (4#1) * (Log 0 - Log 4) + Num (29288#1) * (Num (1#1) - Num (2#1) * Var 2 - Var 3 - Var 4) - Num (14646#1) * Var 3 + Num (30334#1) * Var 3 + Num (14644#1) * Var 4) + (- Var 3) * ((- (Num (3214567#100) - Var 0 * Num (523#50))) + (Num (14644#1) - Var 0 * Num (-187#10)) + Num (83143#10000) * Var 0 * (Log 3 - Log 4) - Num (29288#1) * Var 2 + Num (14646#1) * (Num (1#1) - Var 2 - Num (2#1) * Var 3 - Var 4) + Num (30334#1) * Var 2 - Num (1#67108864) / (Site 5 * Site 5)) + (Num (1#1) - Var 4) * ((- (Num (3214567#100) - Var 0 * Num (523#50))) + (Num (35184#1) - Var 0 * Num (-717#100)) + (- Var 0) * Num (-31753#2000) + Num (83143#10000) * Var 0 * (Log 2 - Num (2#1) * Log 4 - Num (1#1)) - Num (29288#1) * Var 2 - Num (14646#1) * Var 3 + Num (14644#1) * Var 2)].
(** sources/kalsilite.c 634-745: actKal, output a[i] is exp of *)
Definition Kal_aArg :=
  [(Num (3214567#100) * (Num (1#1) - Var 2 - Var 3 - Var 4) + Num (-28242#5) * Var 2 + Num (14644#1) * Var 3 + Num (35184#1) * Var 4 + Num (29288#1) * Var 2 * (Num (1#1) - Var 2 - Var 3 - Var 4) + Num (14646#1) * Var 3 * (Num (1#1) - Var 2 - Var 3 - Var 4) + Num (30334#1) * Var 2 * Var 3 + Num (14644#1) * Var 2 * Var 4 - Var 0 * (Num (523#50) * (Num (1#1) - Var 2 - Var 3 - Var 4) + Num (-187#10) * Var 3 + Num (-46093#2000) * Var 4 - Num (83143#2500) * (Site 0 * Log 0 + (Site 1 - Site 2) * Log 3 + Site 4 * Log 4 + Site 2 * Log 2)) + (Var 1 - Num (1#1)) * (Num (-1#25) * Var 2) + Num (1#67108864) / Site 5 + (- Var 2) * ((- (Num (3214567#100) - Var 0 * Num (523#50))) + (Num (-28242#5) + (Var 1 - Num (1#1)) * Num (-1#25)) + Num (83143#10000) * Var 0 * Num (4#1) * (Log 0 - Log 4) + Num (29288#1) * (Num (1#1) - Num (2#1) * Var 2 - Var 3 - Var 4) - Num (14646#1) * Var 3 + Num (30334#1) * Var 3 + Num (14644#1) * Var 4) + (- Var 3) * ((- (Num (3214567#100) - Var 0 * Num (523#50))) + (Num (14644#1) - Var 0 * Num (-187#10)) + Num (83143#10000) * Var 0 * (Log 3 - Log 4) - Num (29288#1) * Var 2 + Num (14646#1) * (Num (1#1) - Var 2 - Num (2#1) * Var 3 - Var 4) + Num (30334#1) * Var 2 - Num (1#67108864) / (Site 5 * Site 5)) + (- Var 4) * ((- (Num (3214567#100) - Var 0 * Num (523#50))) + (Num (35184#1) - Var 0 * Num (-717#100)) + (- Var 0) * Num (-31753#2000) + Num (83143#10000) * Var 0 * (Log 2 - Num (2#1) * Log 4 - Num (1#1)) - Num (29288#1) * Var 2 - Num (14646#1) * Var 3 + Num (14644#1) * Var 2)) / (Num (83143#10000) * Var 0);
    (Num (3214567#100) * (Num (1#1) - Var 2 - Var 3 - Var 4) + Num (-28242#5) * Var 2 + Num (14644#1) * Var 3 + Num (35184#1) * Var 4 + Num (29288#1) * Var 2 * (Num (1#1) - Var 2 - Var 3 - Var 4) + Num (14646#1) * Var 3 * (Num (1#1) - Var 2 - Var 3 - Var 4) + Num (30334#1) * Var 2 * Var 3 + Num (14644#1) * Var 2 * Var 4 - Var 0 * (Num (523#50) * (Num (1#1) - Var 2 - Var 3 - Var 4) + Num (-187#10) * Var 3 + Num (-46093#2000) * Var 4 - Num (83143#2500) * (Site 0 * Log 0 + (Site 1 - Site 2) * Log 3 + Site 4 * Log 4 + Site 2 * Log 2)) + (Var 1 - Num (1#1)) * (Num (-1#25) * Var 2) + Num (1#67108864) / Site 5 + (Num (1#1) - Var 2) * ((- (Num (3214567#100) - Var 0 * Num (523#50))) + (Num (-28242#5) + (Var 1 - Num (1#1)) * Num (-1#25)) + Num (83143#10000) * Var 0 * Num (4#1) * (Log 0 - Log 4) + Num (29288#1) * (Num (1#1) - Num (2#1) * Var 2 - Var 3 - Var 4) - Num (14646#1) * Var 3 + Num (30334#1) * Var 3 + Num (14644#1) * Var 4) + (- Var 3) * ((- (Num (3214567#100) - Var 0 * Num (523#50))) + (Num (14644#1) - Var 0 * Num (-187#10)) + Num (83143#10000) * Var 0 * (Log 3 - Log 4) - Num (29288#1) * Var 2 + Num (14646#1) * (Num (1#1) - Var 2 - Num (2#1) * Var 3 - Var 4) + Num (30334#1) * Var 2 - Num (1#67108864) / (Site 5 * Site 5)) + (- Var 4) * ((- (Num (3214567#100) - Var 0 * Num (523#50))) + (Num (35184#1) - Var 0 * Num (-717#100)) + (- Var 0) * Num (-31753#2000) + Num (83143#10000) * Var 0 * (Log 2 - Num (2#1) * Log 4 - Num (1#1)) - Num (29288#1) * Var 2 - Num (14646#1) * Var 3 + Num (14644#1) * Var 2)) / (Num (83143#10000) * Var 0);
    (Num (3214567#100) * (Num (1#1) - Var 2 - Var 3 - Var 4) + Num (-28242#5) * Var 2 + Num (14644#1) * Var 3 + Num (35184#1) * Var 4 + Num (29288#1) * Var 2 * (Num (1#1) - Var 2 - Var 3 - Var 4) + Num (14646#1) * Var 3 * (Num (1#1) - Var 2 - Var 3 - Var 4) + Num (30334#1) * Var 2 * Var 3 + Num (14644#1) * Var 2 * Var 4 - Var 0 * (Num (523#50) * (Num (1#1) - Var 2 - Var 3 - Var 4) + Num (-187#10) * Var 3 + Num (-46093#2000) * Var 4 - Num (83143#2500) * (Site 0 * Log 0 + (Site 1 - Site 2) * Log 3 + Site 4 * Log 4 + Site 2 * Log 2)) + (Var 1 - Num (1#1)) * (Num (-1#25) * Var 2) + Num (1#67108864) / Site 5 + (- Var 2) * ((- (Num (3214567#100) - Var 0 * Num (523#50))) + (Num (-28242#5) + (Var 1 - Num (1#1)) * Num (-1#25)) + Num (83143#10000) * Var 0 * Num (4#1) * (Log 0 - Log 4) + Num (29288#1) * (Num (1#1) - Num (2#1) * Var 2 - Var 3 - Var 4) - Num (14646#1) * Var 3 + Num (30334#1) * Var 3 + Num (14644#1) * Var 4) + (Num (1#1) - Var 3) * ((- (Num (3214567#100) - Var 0 * Num (523#50))) + (Num (14644#1) - Var 0 * Num (-187#10)) + Num (83143#10000) * Var 0 * (Log 3 - Log 4) - Num (29288#1) * Var 2 + Num (14646#1) * (Num (1#1) - Var 2 - Num (2#1) * Var 3 - Var 4) + Num (30334#1) * Var 2 - Num (1#67108864) / (Site 5 * Site 5)) + (- Var 4) * ((- (Num (3214567#100) - Var 0 * Num (523#50))) + (Num (35184#1) - Var 0 * Num (-717#100)) + (- Var 0) * Num (-31753#2000) + Num (83143#10000) * Var 0 * (Log 2 - Num (2#1) * Log 4 - Num (1#1)) - Num (29288#1) * Var 2 - Num (14646#1) * Var 3 + Num (14644#1) * Var 2)) / (Num (83143#10000) * Var 0);
    (Num (3214567#100) * (Num (1#1) - Var 2 - Var 3 - Var 4) + Num (-28242#5) * Var 2 + Num (14644#1) * Var 3 + Num (35184#1) * Var 4 + Num (29288#1) * Var 2 * (Num (1#1) - Var 2 - Var 3 - Var 4) + Num (14646#1) * Var 3 * (Num (1#1) - Var 2 - Var 3 - Var 4) + Num (30334#1) * Var 2 * Var 3 + Num (14644#1) * Var 2 * Var 4 - Var 0 * (Num (523#50) * (Num (1#1) - Var 2 - Var 3 - Var 4) + Num (-187#10) * Var 3 + Num (-46093#2000) * Var 4 - Num (83143#2500) * (Site 0 * Log 0 + (Site 1 - Site 2) * Log 3 + Site 4 * Log 4 + Site 2 * Log 2)) + (Var 1 - Num (1#1)) * (Num (-1#25) * Var 2) + Num (1#67108864) / Site 5 + (- Var 2) * ((- (Num (3214567#100) - Var 0 * Num (523#50))) + (Num (-28242#5) + (Var 1 - Num (1#1)) * Num (-1#25)) + Num (83143#10000) * Var 0 * Num (4#1) * (Log 0 - Log 4) + Num (29288#1) * (Num (1#1) - Num (2#1) * Var 2 - Var 3 - Var 4) - Num (14646#1) * Var 3 + Num (30334#1) * Var 3 + Num (14644#1) * Var 4) + (- Var 3) * ((- (Num (3214567#100) - Var 0 * Num (523#50))) + (Num (14644#1) - Var 0 * Num (-187#10)) + Num (83143#10000) * Var 0 * (Log 3 - Log 4) - Num (29288#1) * Var 2 + Num (14646#1) * (Num (1#1) - Var 2 - Num (2#1) * Var 3 - Var 4) + Num (30334#1) * Var 2 - Num (1#67108864) / (Site 5 * Site 5)) + (Num (1#1) - Var 4) * ((- (Num (3214567#100) - Var 0 * Num (523#50))) + (Num (35184#1) - Var 0 * Num (-717#100)) + (- Var 0) * Num (-31753#2000) + Num (83143#10000) * Var 0 * (Log 2 - Num (2#1) * Log 4 - Num (1#1)) - Num (29288#1) * Var 2 - Num (14646#1) * Var 3 + Num (14644#1) * Var 2)) / (Num (83143#10000) * Var 0)].
(** sources/kalsilite.c 634-745: actKal, output dx[i][k] is a[i] times *)
Definition Kal_aDx :=
  [[((- Var 2) * (Num (83143#10000) * Var 0 * Num (4#1) * (Num (1#1) / Site 0 + Num (1#1) / Site 4) - Num (58576#1)) + (- Var 3) * (Num (83143#10000) * Var 0 / Site 4 - Num (29288#1) + Num (30334#1) - Num (14646#1)) + (- Var 4) * (Num (83143#10000) * Var 0 * Num (2#1) / Site 4 - Num (29288#1) + Num (14644#1))) / (Num (83143#10000) * Var 0);
    ((- Var 2) * (Num (83143#10000) * Var 0 / Site 4 - Num (29288#1) + Num (30334#1) - Num (14646#1)) + (- Var 3) * (Num (83143#10000) * Var 0 * Num (1#4) * (Num (1#1) / Site 3 + Num (1#1) / Site 4) - Num (29292#1) + Num (1#33554432) / (Site 5 * Site 5 * Site 5)) + (- Var 4) * (Num (83143#10000) * Var 0 * (Num (1#2) / Site 4) - Num (14646#1))) / (Num (83143#10000) * Var 0);
    ((- Var 2) * (Num (83143#10000) * Var 0 * Num (2#1) / Site 4 - Num (29288#1) + Num (14644#1)) + (- Var 3) * (Num (83143#10000) * Var 0 * (Num (1#2) / Site 4) - Num (14646#1)) + (- Var 4) * (Num (83143#10000) * Var 0 * (Num (1#4) / Site 2 + Num (1#1) / Site 4))) / (Num (83143#10000) * Var 0)];
    [((Num (1#1) - Var 2) * (Num (83143#10000) * Var 0 * Num (4#1) * (Num (1#1) / Site 0 + Num (1#1) / Site 4) - Num (58576#1)) + (- Var 3) * (Num (83143#10000) * Var 0 / Site 4 - Num (29288#1) + Num (30334#1) - Num (14646#1)) + (- Var 4) * (Num (83143#10000) * Var 0 * Num (2#1) / Site 4 - Num (29288#1) + Num (14644#1))) / (Num (83143#10000) * Var 0);
    ((Num (1#1) - Var 2) * (Num (83143#10000) * Var 0 / Site 4 - Num (29288#1) + Num (30334#1) - Num (14646#1)) + (- Var 3) * (Num (83143#10000) * Var 0 * Num (1#4) * (Num (1#1) / Site 3 + Num (1#1) / Site 4) - Num (29292#1) + Num (1#33554432) / (Site 5 * Site 5 * Site 5)) + (- Var 4) * (Num (83143#10000) * Var 0 * (Num (1#2) / Site 4) - Num (14646#1))) / (Num (83143#10000) * Var 0);
    ((Num (1#1) - Var 2) * (Num (83143#10000) * Var 0 * Num (2#1) / Site 4 - Num (29288#1) + Num (14644#1)) + (- Var 3) * (Num (83143#10000) * Var 0 * (Num (1#2) / Site 4) - Num (14646#1)) + (- Var 4) * (Num (83143#10000) * Var 0 * (Num (1#4) / Site 2 + Num (1#1) / Site 4))) / (Num (83143#10000) * Var 0)];
    [((- Var 2) * (Num (83143#10000) * Var 0 * Num (4#1) * (Num (1#1) / Site 0 + Num (1#1) / Site 4) - Num (58576#1)) + (Num (1#1) - Var 3) * (Num (83143#10000) * Var 0 / Site 4 - Num (29288#1) + Num (30334#1) - Num (14646#1)) + (- Var 4) * (Num (83143#10000) * Var 0 * Num (2#1) / Site 4 - Num (29288#1) + Num (14644#1))) / (Num (83143#10000) * Var 0);
    ((- Var 2) * (Num (83143#10000) * Var 0 / Site 4 - Num (29288#1) + Num (30334#1) - Num (14646#1)) + (Num (1#1) - Var 3) * (Num (83143#10000) * Var 0 * Num (1#4) * (Num (1#1) / Site 3 + Num (1#1) / Site 4) - Num (29292#1) + Num (1#33554432) / (Site 5 * Site 5 * Site 5)) + (- Var 4) * (Num (83143#10000) * Var 0 * (Num (1#2) / Site 4) - Num (14646#1))) / (Num (83143#10000) * Var 0);
    ((- Var 2) * (Num (83143#10000) * Var 0 * Num (2#1) / Site 4 - Num (29288#1) + Num (14644#1)) + (Num (1#1) - Var 3) * (Num (83143#10000) * Var 0 * (Num (1#2) / Site 4) - Num (14646#1)) + (- Var 4) * (Num (83143#10000) * Var 0 * (Num (1#4) / Site 2 + Num (1#1) / Site 4))) / (Num (83143#10000) * Var 0)];
    [((- Var 2) * (Num (83143#10000) * Var 0 * Num (4#1) * (Num (1#1) / Site 0 + Num (1#1) / Site 4) - Num (58576#1)) + (- Var 3) * (Num (83143#10000) * Var 0 / Site 4 - Num (29288#1) + Num (30334#1) - Num (14646#1)) + (Num (1#1) - Var 4) * (Num (83143#10000) * Var 0 * Num (2#1) / Site 4 - Num (29288#1) + Num (14644#1))) / (Num (83143#10000) * Var 0);
    ((- Var 2) * (Num (83143#10000) * Var 0 / Site 4 - Num (29288#1) + Num (30334#1) - Num (14646#1)) + (- Var 3) * (Num (83143#10000) * Var 0 * Num (1#4) * (Num (1#1) / Site 3 + Num (1#1) / Site 4) - Num (29292#1) + Num (1#33554432) / (Site 5 * Site 5 * Site 5)) + (Num (1#1) - Var 4) * (Num (83143#10000) * Var 0 * (Num (1#2) / Site 4) - Num (14646#1))) / (Num (83143#10000) * Var 0);
    ((- Var 2) * (Num (83143#10000) * Var 0 * Num (2#1) / Site 4 - Num (29288#1) + Num (14644#1)) + (- Var 3) * (Num (83143#10000) * Var 0 * (Num (1#2) / Site 4) - Num (14646#1)) + (Num (1#1) - Var 4) * (Num (83143#10000) * Var 0 * (Num (1#4) / Site 2 + Num (1#1) / Site 4))) / (Num (83143#10000) * Var 0)]].
(** the site fractions of sources/kalsilite.c (first lines of each function); clamped: (x > DBL_EPSILON) ? x : DBL_EPSILON;
    unclamped: an argument of log or a denominator that the code does not guard *)
Definition Kal_sites : list site :=
  [mkSite (Var 2) Both;
   mkSite ((Var 3 + Var 4) / Num (4#1)) Both;
   mkSite (Var 4 / Num (4#1)) Both;
   mkSite ((Var 3 + Var 4) / Num (4#1) - Var 4 / Num (4#1)) Free;
   mkSite (Num (1#1) - Var 2 - Var 3 / Num (4#1) - Var 4 / Num (2#1)) Both;
   mkSite (Var 3) Free].
Definition Kal : phase :=
  mkPhase "kalsilite" 4 3 conKal Kal_sites Kal_g0 Kal_g1 Kal_g2 Kal_g3 Kal_h0 Kal_s0 Kal_s1 Kal_s2 Kal_c0 Kal_ct Kal_c1
    Kal_v0 Kal_v1 Kal_v2 Kal_vt Kal_vp Kal_vtt Kal_vtp Kal_vpp Kal_v1t Kal_v1p Kal_mu Kal_aArg Kal_aDx.

Definition phases : list phase := [Fld; Grn; Bio; Hrn; Leu; Maj; Osx; Pvk; Rgw; Wds; Wus; Ilm; AlL; AlS; Kal].
