(** GENERATED by tools/gen_ord.py from /repo/sources: do not edit. The energy formulas of the solution phases that
    have ordering parameters: macros expanded, exact rationals for literals. Variable 0 is t, 1 is p, 2+i is r[i],
    40+k is s[k], 60+i is ends[i]. *)
From Coq Require Import QArith NArith List String.
From Verif Require Import Sym SolnModel OrdModel.
Import List ListNotations.
Local Open Scope N_scope.
Local Open Scope Q_scope.
Local Open Scope string_scope.
Local Open Scope sym_scope.
Arguments Num _%Q. Arguments Var _%N. Arguments Site _%N. Arguments Log _%N.

(** sources/amphibole.c 643: macro G *)
Definition oAph_g :=
  (- Var 0) * (Num (-83143#10000) * (Num (2#1) * Site 1 * Log 1 + Num (2#1) * Site 4 * Log 4 + Num (2#1) * Site 0 * Log 0 + Num (3#1) * Site 2 * Log 2 + Num (3#1) * Site 5 * Log 5 + Num (2#1) * Site 3 * Log 3 + Num (2#1) * Site 6 * Log 6)) + Num (2239999#200) + Num (-960741#100) * Var 40 + Num (-1624819#100) * Var 41 + Num (-2239999#200) * Var 2 * Var 2 + Num (-26432577#7000) * Var 2 * Var 40 + Num (23839527#7000) * Var 2 * Var 41 + Num (-107620517#12250) * Var 40 * Var 40 + Num (420456899#49000) * Var 40 * Var 41 + Num (-149237631#49000) * Var 41 * Var 41 + Num (1038649#25) * Var 3 + Num (-366351#25) * Var 2 * Var 3 + Num (-3319156#175) * Var 3 * Var 40 + Num (528721#175) * Var 3 * Var 41 + Num (-56200#1) * Var 3 * Var 3.
(** sources/amphibole.c 618: macro S *)
Definition oAph_s :=
  Num (-83143#10000) * (Num (2#1) * Site 1 * Log 1 + Num (2#1) * Site 4 * Log 4 + Num (2#1) * Site 0 * Log 0 + Num (3#1) * Site 2 * Log 2 + Num (3#1) * Site 5 * Log 5 + Num (2#1) * Site 3 * Log 3 + Num (2#1) * Site 6 * Log 6).
(** sources/amphibole.c 679: macro DGDP *)
Definition oAph_v :=
  Num (0#1).
(** sources/amphibole.c 655-660: macros DGDRi *)
Definition oAph_r1 :=
  [Num (83143#10000) * Var 0 * (Log 1 - Log 4 + Num (3#1) * Log 2 / Num (2#1) - Num (3#1) * Log 5 / Num (2#1) + Log 3 - Log 6) + Num (-2239999#100) * Var 2 + Num (-26432577#7000) * Var 40 + Num (23839527#7000) * Var 41 + Num (-366351#25) * Var 3;
    Num (83143#10000) * Var 0 * (Num (-2#1) * Log 4 + Num (2#1) * Log 0) + Num (1038649#25) + Num (-366351#25) * Var 2 + Num (-3319156#175) * Var 40 + Num (528721#175) * Var 41 + Num (-112400#1) * Var 3].
(** sources/amphibole.c 666-672: macros DGDSi *)
Definition oAph_s1 :=
  [Num (83143#10000) * Var 0 * (Num (6#1) * Log 1 / Num (7#1) - Num (6#1) * Log 4 / Num (7#1) - Num (12#1) * Log 2 / Num (7#1) + Num (12#1) * Log 5 / Num (7#1) + Num (6#1) * Log 3 / Num (7#1) - Num (6#1) * Log 6 / Num (7#1)) + Num (-960741#100) + Num (-26432577#7000) * Var 2 + Num (-107620517#6125) * Var 40 + Num (420456899#49000) * Var 41 + Num (-3319156#175) * Var 3;
    Num (83143#10000) * Var 0 * (Num (4#1) * Log 1 / Num (7#1) - Num (4#1) * Log 4 / Num (7#1) + Num (6#1) * Log 2 / Num (7#1) - Num (6#1) * Log 5 / Num (7#1) - Num (10#1) * Log 3 / Num (7#1) + Num (10#1) * Log 6 / Num (7#1)) + Num (-1624819#100) + Num (23839527#7000) * Var 2 + Num (420456899#49000) * Var 40 + Num (-149237631#24500) * Var 41 + Num (528721#175) * Var 3].
(** sources/amphibole.c 881: macro fillD2GDR2 *)
Definition oAph_d2gdr2 :=
  [[Num (83143#10000) * Var 0 * (Num (1#1) / (Num (2#1) * Site 1) + Num (1#1) / (Num (2#1) * Site 4) + Num (3#1) / (Num (4#1) * Site 2) + Num (3#1) / (Num (4#1) * Site 5) + Num (1#1) / (Num (2#1) * Site 3) + Num (1#1) / (Num (2#1) * Site 6)) + Num (-2239999#100);
    Num (83143#10000) * Var 0 * (Num (1#1) / Site 4) + Num (-366351#25)];
    [Num (83143#10000) * Var 0 * (Num (1#1) / Site 4) + Num (-366351#25);
    Num (83143#10000) * Var 0 * (Num (2#1) / Site 4 + Num (2#1) / Site 0) + Num (-112400#1)]].
(** sources/amphibole.c 885: macro fillD2GDRDS *)
Definition oAph_d2gdrds :=
  [[Num (83143#10000) * Var 0 * (Num (3#1) / (Num (7#1) * Site 1) + Num (3#1) / (Num (7#1) * Site 4) - Num (6#1) / (Num (7#1) * Site 2) - Num (6#1) / (Num (7#1) * Site 5) + Num (3#1) / (Num (7#1) * Site 3) + Num (3#1) / (Num (7#1) * Site 6)) + Num (-26432577#7000);
    Num (83143#10000) * Var 0 * (Num (2#1) / (Num (7#1) * Site 1) + Num (2#1) / (Num (7#1) * Site 4) + Num (3#1) / (Num (7#1) * Site 2) + Num (3#1) / (Num (7#1) * Site 5) - Num (5#1) / (Num (7#1) * Site 3) - Num (5#1) / (Num (7#1) * Site 6)) + Num (23839527#7000)];
    [Num (83143#10000) * Var 0 * (Num (6#1) / (Num (7#1) * Site 4)) + Num (-3319156#175);
    Num (83143#10000) * Var 0 * (Num (4#1) / (Num (7#1) * Site 4)) + Num (528721#175)]].
(** sources/amphibole.c 889: macro fillD2GDRDT *)
Definition oAph_d2gdrdt :=
  [Num (83143#10000) * (Log 1 - Log 4 + Num (3#1) * Log 2 / Num (2#1) - Num (3#1) * Log 5 / Num (2#1) + Log 3 - Log 6);
    Num (83143#10000) * (Num (-2#1) * Log 4 + Num (2#1) * Log 0)].
(** sources/amphibole.c 892: macro fillD2GDRDP *)
Definition oAph_d2gdrdp :=
  [Num (0#1);
    Num (0#1)].
(** sources/amphibole.c 895: macro fillD2GDS2 *)
Definition oAph_d2gds2 :=
  [[Num (83143#10000) * Var 0 * (Num (18#1) / (Num (49#1) * Site 1) + Num (18#1) / (Num (49#1) * Site 4) + Num (48#1) / (Num (49#1) * Site 2) + Num (48#1) / (Num (49#1) * Site 5) + Num (18#1) / (Num (49#1) * Site 3) + Num (18#1) / (Num (49#1) * Site 6)) + Num (-107620517#6125);
    Num (83143#10000) * Var 0 * (Num (12#1) / (Num (49#1) * Site 1) + Num (12#1) / (Num (49#1) * Site 4) - Num (24#1) / (Num (49#1) * Site 2) - Num (24#1) / (Num (49#1) * Site 5) - Num (30#1) / (Num (49#1) * Site 3) - Num (30#1) / (Num (49#1) * Site 6)) + Num (420456899#49000)];
    [Num (83143#10000) * Var 0 * (Num (12#1) / (Num (49#1) * Site 1) + Num (12#1) / (Num (49#1) * Site 4) - Num (24#1) / (Num (49#1) * Site 2) - Num (24#1) / (Num (49#1) * Site 5) - Num (30#1) / (Num (49#1) * Site 3) - Num (30#1) / (Num (49#1) * Site 6)) + Num (420456899#49000);
    Num (83143#10000) * Var 0 * (Num (8#1) / (Num (49#1) * Site 1) + Num (8#1) / (Num (49#1) * Site 4) + Num (12#1) / (Num (49#1) * Site 2) + Num (12#1) / (Num (49#1) * Site 5) + Num (50#1) / (Num (49#1) * Site 3) + Num (50#1) / (Num (49#1) * Site 6)) + Num (-149237631#24500)]].
(** sources/amphibole.c 899: macro fillD2GDSDT *)
Definition oAph_d2gdsdt :=
  [Num (83143#10000) * (Num (6#1) * Log 1 / Num (7#1) - Num (6#1) * Log 4 / Num (7#1) - Num (12#1) * Log 2 / Num (7#1) + Num (12#1) * Log 5 / Num (7#1) + Num (6#1) * Log 3 / Num (7#1) - Num (6#1) * Log 6 / Num (7#1));
    Num (83143#10000) * (Num (4#1) * Log 1 / Num (7#1) - Num (4#1) * Log 4 / Num (7#1) + Num (6#1) * Log 2 / Num (7#1) - Num (6#1) * Log 5 / Num (7#1) - Num (10#1) * Log 3 / Num (7#1) + Num (10#1) * Log 6 / Num (7#1))].
(** sources/amphibole.c 902: macro fillD2GDSDP *)
Definition oAph_d2gdsdp :=
  [Num (0#1);
    Num (0#1)].
(** sources/amphibole.c 905: macro fillD3GDR3 *)
Definition oAph_d3gdr3 :=
  [[[Num (83143#10000) * Var 0 * (Num (-1#1) / (Num (4#1) * Site 1 * Site 1) + Num (1#1) / (Num (4#1) * Site 4 * Site 4) - Num (3#1) / (Num (8#1) * Site 2 * Site 2) + Num (3#1) / (Num (8#1) * Site 5 * Site 5) - Num (1#1) / (Num (4#1) * Site 3 * Site 3) + Num (1#1) / (Num (4#1) * Site 6 * Site 6));
    Num (83143#10000) * Var 0 * (Num (1#1) / (Num (2#1) * Site 4 * Site 4))];
    [Num (83143#10000) * Var 0 * (Num (1#1) / (Num (2#1) * Site 4 * Site 4));
    Num (83143#10000) * Var 0 * (Num (1#1) / (Site 4 * Site 4))]];
    [[Num (83143#10000) * Var 0 * (Num (1#1) / (Num (2#1) * Site 4 * Site 4));
    Num (83143#10000) * Var 0 * (Num (1#1) / (Site 4 * Site 4))];
    [Num (83143#10000) * Var 0 * (Num (1#1) / (Site 4 * Site 4));
    Num (83143#10000) * Var 0 * (Num (2#1) / (Site 4 * Site 4) - Num (2#1) / (Site 0 * Site 0))]]].
(** sources/amphibole.c 911: macro fillD3GDR2DS *)
Definition oAph_d3gdr2ds :=
  [[[Num (83143#10000) * Var 0 * (Num (-3#1) / (Num (14#1) * Site 1 * Site 1) + Num (3#1) / (Num (14#1) * Site 4 * Site 4) + Num (12#1) / (Num (28#1) * Site 2 * Site 2) - Num (12#1) / (Num (28#1) * Site 5 * Site 5) - Num (3#1) / (Num (14#1) * Site 3 * Site 3) + Num (3#1) / (Num (14#1) * Site 6 * Site 6));
    Num (83143#10000) * Var 0 * (Num (-2#1) / (Num (14#1) * Site 1 * Site 1) + Num (2#1) / (Num (14#1) * Site 4 * Site 4) - Num (6#1) / (Num (28#1) * Site 2 * Site 2) + Num (6#1) / (Num (28#1) * Site 5 * Site 5) + Num (5#1) / (Num (14#1) * Site 3 * Site 3) - Num (5#1) / (Num (14#1) * Site 6 * Site 6))];
    [Num (83143#10000) * Var 0 * (Num (3#1) / (Num (7#1) * Site 4 * Site 4));
    Num (83143#10000) * Var 0 * (Num (2#1) / (Num (7#1) * Site 4 * Site 4))]];
    [[Num (83143#10000) * Var 0 * (Num (3#1) / (Num (7#1) * Site 4 * Site 4));
    Num (83143#10000) * Var 0 * (Num (2#1) / (Num (7#1) * Site 4 * Site 4))];
    [Num (83143#10000) * Var 0 * (Num (6#1) / (Num (7#1) * Site 4 * Site 4));
    Num (83143#10000) * Var 0 * (Num (4#1) / (Num (7#1) * Site 4 * Site 4))]]].
(** sources/amphibole.c 917: macro fillD3GDR2DT *)
Definition oAph_d3gdr2dt :=
  [[Num (83143#10000) * (Num (1#1) / (Num (2#1) * Site 1) + Num (1#1) / (Num (2#1) * Site 4) + Num (3#1) / (Num (4#1) * Site 2) + Num (3#1) / (Num (4#1) * Site 5) + Num (1#1) / (Num (2#1) * Site 3) + Num (1#1) / (Num (2#1) * Site 6));
    Num (83143#10000) * (Num (1#1) / Site 4)];
    [Num (83143#10000) * (Num (1#1) / Site 4);
    Num (83143#10000) * (Num (2#1) / Site 4 + Num (2#1) / Site 0)]].
(** sources/amphibole.c 921: macro fillD3GDR2DP *)
Definition oAph_d3gdr2dp :=
  [[Num (0#1);
    Num (0#1)];
    [Num (0#1);
    Num (0#1)]].
(** sources/amphibole.c 925: macro fillD3GDRDS2 *)
Definition oAph_d3gdrds2 :=
  [[[Num (83143#10000) * Var 0 * (Num (-9#1) / (Num (49#1) * Site 1 * Site 1) + Num (9#1) / (Num (49#1) * Site 4 * Site 4) - Num (24#1) / (Num (49#1) * Site 2 * Site 2) + Num (24#1) / (Num (49#1) * Site 5 * Site 5) - Num (9#1) / (Num (49#1) * Site 3 * Site 3) + Num (9#1) / (Num (49#1) * Site 6 * Site 6));
    Num (83143#10000) * Var 0 * (Num (-6#1) / (Num (49#1) * Site 1 * Site 1) + Num (6#1) / (Num (49#1) * Site 4 * Site 4) + Num (12#1) / (Num (49#1) * Site 2 * Site 2) - Num (12#1) / (Num (49#1) * Site 5 * Site 5) + Num (15#1) / (Num (49#1) * Site 3 * Site 3) - Num (15#1) / (Num (49#1) * Site 6 * Site 6))];
    [Num (83143#10000) * Var 0 * (Num (-6#1) / (Num (49#1) * Site 1 * Site 1) + Num (6#1) / (Num (49#1) * Site 4 * Site 4) + Num (12#1) / (Num (49#1) * Site 2 * Site 2) - Num (12#1) / (Num (49#1) * Site 5 * Site 5) + Num (15#1) / (Num (49#1) * Site 3 * Site 3) - Num (15#1) / (Num (49#1) * Site 6 * Site 6));
    Num (83143#10000) * Var 0 * (Num (-4#1) / (Num (49#1) * Site 1 * Site 1) + Num (4#1) / (Num (49#1) * Site 4 * Site 4) - Num (6#1) / (Num (49#1) * Site 2 * Site 2) + Num (6#1) / (Num (49#1) * Site 5 * Site 5) - Num (25#1) / (Num (49#1) * Site 3 * Site 3) + Num (25#1) / (Num (49#1) * Site 6 * Site 6))]];
    [[Num (83143#10000) * Var 0 * (Num (18#1) / (Num (49#1) * Site 4 * Site 4));
    Num (83143#10000) * Var 0 * (Num (12#1) / (Num (49#1) * Site 4 * Site 4))];
    [Num (83143#10000) * Var 0 * (Num (12#1) / (Num (49#1) * Site 4 * Site 4));
    Num (83143#10000) * Var 0 * (Num (8#1) / (Num (49#1) * Site 4 * Site 4))]]].
(** sources/amphibole.c 931: macro fillD3GDRDSDT *)
Definition oAph_d3gdrdsdt :=
  [[Num (83143#10000) * (Num (3#1) / (Num (7#1) * Site 1) + Num (3#1) / (Num (7#1) * Site 4) - Num (6#1) / (Num (7#1) * Site 2) - Num (6#1) / (Num (7#1) * Site 5) + Num (3#1) / (Num (7#1) * Site 3) + Num (3#1) / (Num (7#1) * Site 6));
    Num (83143#10000) * (Num (2#1) / (Num (7#1) * Site 1) + Num (2#1) / (Num (7#1) * Site 4) + Num (3#1) / (Num (7#1) * Site 2) + Num (3#1) / (Num (7#1) * Site 5) - Num (5#1) / (Num (7#1) * Site 3) - Num (5#1) / (Num (7#1) * Site 6))];
    [Num (83143#10000) * (Num (6#1) / (Num (7#1) * Site 4));
    Num (83143#10000) * (Num (4#1) / (Num (7#1) * Site 4))]].
(** sources/amphibole.c 935: macro fillD3GDRDSDP *)
Definition oAph_d3gdrdsdp :=
  [[Num (0#1);
    Num (0#1)];
    [Num (0#1);
    Num (0#1)]].
(** sources/amphibole.c 939: macro fillD3GDS3 *)
Definition oAph_d3gds3 :=
  [[[Num (83143#10000) * Var 0 * (Num (-54#1) / (Num (343#1) * Site 1 * Site 1) + Num (54#1) / (Num (343#1) * Site 4 * Site 4) + Num (192#1) / (Num (343#1) * Site 2 * Site 2) - Num (192#1) / (Num (343#1) * Site 5 * Site 5) - Num (54#1) / (Num (343#1) * Site 3 * Site 3) + Num (54#1) / (Num (343#1) * Site 6 * Site 6));
    Num (83143#10000) * Var 0 * (Num (-36#1) / (Num (343#1) * Site 1 * Site 1) + Num (36#1) / (Num (343#1) * Site 4 * Site 4) - Num (96#1) / (Num (343#1) * Site 2 * Site 2) + Num (96#1) / (Num (343#1) * Site 5 * Site 5) + Num (90#1) / (Num (343#1) * Site 3 * Site 3) - Num (90#1) / (Num (343#1) * Site 6 * Site 6))];
    [Num (83143#10000) * Var 0 * (Num (-36#1) / (Num (343#1) * Site 1 * Site 1) + Num (36#1) / (Num (343#1) * Site 4 * Site 4) - Num (96#1) / (Num (343#1) * Site 2 * Site 2) + Num (96#1) / (Num (343#1) * Site 5 * Site 5) + Num (90#1) / (Num (343#1) * Site 3 * Site 3) - Num (90#1) / (Num (343#1) * Site 6 * Site 6));
    Num (83143#10000) * Var 0 * (Num (-24#1) / (Num (343#1) * Site 1 * Site 1) + Num (24#1) / (Num (343#1) * Site 4 * Site 4) + Num (48#1) / (Num (343#1) * Site 2 * Site 2) - Num (48#1) / (Num (343#1) * Site 5 * Site 5) - Num (150#1) / (Num (343#1) * Site 3 * Site 3) + Num (150#1) / (Num (343#1) * Site 6 * Site 6))]];
    [[Num (83143#10000) * Var 0 * (Num (-36#1) / (Num (343#1) * Site 1 * Site 1) + Num (36#1) / (Num (343#1) * Site 4 * Site 4) - Num (96#1) / (Num (343#1) * Site 2 * Site 2) + Num (96#1) / (Num (343#1) * Site 5 * Site 5) + Num (90#1) / (Num (343#1) * Site 3 * Site 3) - Num (90#1) / (Num (343#1) * Site 6 * Site 6));
    Num (83143#10000) * Var 0 * (Num (-24#1) / (Num (343#1) * Site 1 * Site 1) + Num (24#1) / (Num (343#1) * Site 4 * Site 4) + Num (48#1) / (Num (343#1) * Site 2 * Site 2) - Num (48#1) / (Num (343#1) * Site 5 * Site 5) - Num (150#1) / (Num (343#1) * Site 3 * Site 3) + Num (150#1) / (Num (343#1) * Site 6 * Site 6))];
    [Num (83143#10000) * Var 0 * (Num (-24#1) / (Num (343#1) * Site 1 * Site 1) + Num (24#1) / (Num (343#1) * Site 4 * Site 4) + Num (48#1) / (Num (343#1) * Site 2 * Site 2) - Num (48#1) / (Num (343#1) * Site 5 * Site 5) - Num (150#1) / (Num (343#1) * Site 3 * Site 3) + Num (150#1) / (Num (343#1) * Site 6 * Site 6));
    Num (83143#10000) * Var 0 * (Num (-16#1) / (Num (343#1) * Site 1 * Site 1) + Num (16#1) / (Num (343#1) * Site 4 * Site 4) - Num (24#1) / (Num (343#1) * Site 2 * Site 2) + Num (24#1) / (Num (343#1) * Site 5 * Site 5) + Num (250#1) / (Num (343#1) * Site 3 * Site 3) - Num (250#1) / (Num (343#1) * Site 6 * Site 6))]]].
(** sources/amphibole.c 945: macro fillD3GDS2DT *)
Definition oAph_d3gds2dt :=
  [[Num (83143#10000) * (Num (18#1) / (Num (49#1) * Site 1) + Num (18#1) / (Num (49#1) * Site 4) + Num (48#1) / (Num (49#1) * Site 2) + Num (48#1) / (Num (49#1) * Site 5) + Num (18#1) / (Num (49#1) * Site 3) + Num (18#1) / (Num (49#1) * Site 6));
    Num (83143#10000) * (Num (12#1) / (Num (49#1) * Site 1) + Num (12#1) / (Num (49#1) * Site 4) - Num (24#1) / (Num (49#1) * Site 2) - Num (24#1) / (Num (49#1) * Site 5) - Num (30#1) / (Num (49#1) * Site 3) - Num (30#1) / (Num (49#1) * Site 6))];
    [Num (83143#10000) * (Num (12#1) / (Num (49#1) * Site 1) + Num (12#1) / (Num (49#1) * Site 4) - Num (24#1) / (Num (49#1) * Site 2) - Num (24#1) / (Num (49#1) * Site 5) - Num (30#1) / (Num (49#1) * Site 3) - Num (30#1) / (Num (49#1) * Site 6));
    Num (83143#10000) * (Num (8#1) / (Num (49#1) * Site 1) + Num (8#1) / (Num (49#1) * Site 4) + Num (12#1) / (Num (49#1) * Site 2) + Num (12#1) / (Num (49#1) * Site 5) + Num (50#1) / (Num (49#1) * Site 3) + Num (50#1) / (Num (49#1) * Site 6))]].
(** sources/amphibole.c 949: macro fillD3GDS2DP *)
Definition oAph_d3gds2dp :=
  [[Num (0#1);
    Num (0#1)];
    [Num (0#1);
    Num (0#1)]].
(** sources/amphibole.c 953: macro fillD3GDSDT2 *)
Definition oAph_d3gdsdt2 :=
  [Num (0#1);
    Num (0#1)].
(** sources/amphibole.c 956: macro fillD3GDSDTDP *)
Definition oAph_d3gdsdtdp :=
  [Num (0#1);
    Num (0#1)].
(** sources/amphibole.c 959: macro fillD3GDSDP2 *)
Definition oAph_d3gdsdp2 :=
  [Num (0#1);
    Num (0#1)].
(** sources/amphibole.c 962: macro fillD3GDRDT2 *)
Definition oAph_d3gdrdt2 :=
  [Num (0#1);
    Num (0#1)].
(** sources/amphibole.c 965: macro fillD3GDRDTDP *)
Definition oAph_d3gdrdtdp :=
  [Num (0#1);
    Num (0#1)].
(** sources/amphibole.c 968: macro fillD3GDRDP2 *)
Definition oAph_d3gdrdp2 :=
  [Num (0#1);
    Num (0#1)].
(** sources/amphibole.c 756: macro D2GDT2 *)
Definition oAph_D2GDT2 :=
  Num (0#1).
(** sources/amphibole.c 757: macro D2GDTDP *)
Definition oAph_D2GDTDP :=
  Num (0#1).
(** sources/amphibole.c 758: macro D2GDP2 *)
Definition oAph_D2GDP2 :=
  Num (0#1).
(** sources/amphibole.c 865: macro D3GDT3 *)
Definition oAph_D3GDT3 :=
  Num (0#1).
(** sources/amphibole.c 866: macro D3GDT2DP *)
Definition oAph_D3GDT2DP :=
  Num (0#1).
(** sources/amphibole.c 867: macro D3GDTDP2 *)
Definition oAph_D3GDTDP2 :=
  Num (0#1).
(** sources/amphibole.c 868: macro D3GDP3 *)
Definition oAph_D3GDP3 :=
  Num (0#1).
(** sources/amphibole.c, order: the site fractions and their clamps *)
Definition oAph_sites := [mkSite (Var 3) Free;
    mkSite ((Num (1#1) + Var 2 + Num (6#1) * Var 40 / Num (7#1) + Num (4#1) * Var 41 / Num (7#1)) / Num (2#1)) Low;
    mkSite ((Num (1#1) + Var 2 - Num (8#1) * Var 40 / Num (7#1) + Num (4#1) * Var 41 / Num (7#1)) / Num (2#1)) Low;
    mkSite ((Num (1#1) + Var 2 + Num (6#1) * Var 40 / Num (7#1) - Num (10#1) * Var 41 / Num (7#1)) / Num (2#1)) Low;
    mkSite (Num (1#1) - (Num (1#1) + Var 2 + Num (6#1) * Var 40 / Num (7#1) + Num (4#1) * Var 41 / Num (7#1)) / Num (2#1) - Var 3) Low;
    mkSite (Num (1#1) - (Num (1#1) + Var 2 - Num (8#1) * Var 40 / Num (7#1) + Num (4#1) * Var 41 / Num (7#1)) / Num (2#1)) Low;
    mkSite (Num (1#1) - (Num (1#1) + Var 2 + Num (6#1) * Var 40 / Num (7#1) - Num (10#1) * Var 41 / Num (7#1)) / Num (2#1)) Low].
Definition oAph := mkOrd "amphibole" 3 2 2 LU true oAph_sites None oAph_g oAph_s oAph_v oAph_r1 oAph_s1
  oAph_d2gdr2 oAph_d2gdrds oAph_d2gdrdt oAph_d2gdrdp oAph_d2gds2 oAph_d2gdsdt oAph_d2gdsdp oAph_d3gdr3 oAph_d3gdr2ds oAph_d3gdr2dt oAph_d3gdr2dp oAph_d3gdrds2 oAph_d3gdrdsdt oAph_d3gdrdsdp oAph_d3gds3 oAph_d3gds2dt oAph_d3gds2dp oAph_d3gdsdt2 oAph_d3gdsdtdp oAph_d3gdsdp2 oAph_d3gdrdt2 oAph_d3gdrdtdp oAph_d3gdrdp2 oAph_D2GDT2 oAph_D2GDTDP oAph_D2GDP2 oAph_D3GDT3 oAph_D3GDT2DP oAph_D3GDTDP2 oAph_D3GDP3.
(** sources/amphibole.c 643: macro G *)
Definition oAph_ortho_g :=
  (- Var 0) * (Num (-83143#10000) * (Num (2#1) * Site 1 * Log 1 + Num (2#1) * Site 4 * Log 4 + Num (2#1) * Site 0 * Log 0 + Num (3#1) * Site 2 * Log 2 + Num (3#1) * Site 5 * Log 5 + Num (2#1) * Site 3 * Log 3 + Num (2#1) * Site 6 * Log 6)) + ((Num (-52117#10) - Var 0 * Num (-5#1) + (Var 1 - Num (1#1)) * Num (-3#100)) / Num (2#1) + (Num (-69297#20) - Var 0 * Num (-5#1) + (Var 1 - Num (1#1)) * Num (-3#100)) / Num (2#1) + Num (27619#4) + Num (9307#5) + Num (68677#20)) + ((- (Num (-52117#10) - Var 0 * Num (-5#1) + (Var 1 - Num (1#1)) * Num (-3#100))) / Num (2#1) + (Num (-69297#20) - Var 0 * Num (-5#1) + (Var 1 - Num (1#1)) * Num (-3#100)) / Num (2#1)) * Var 2 + Num (-960741#100) * Var 40 + Num (-1624819#100) * Var 41 + Num (-12200#1) * Var 2 * Var 2 + Num (-13216307#3500) * Var 2 * Var 40 + Num (11919757#3500) * Var 2 * Var 41 + Num (-107620529#12250) * Var 40 * Var 40 + Num (52557401#6125) * Var 40 * Var 41 + Num (-37309773#12250) * Var 41 * Var 41 + ((- (Num (-52117#10) - Var 0 * Num (-5#1) + (Var 1 - Num (1#1)) * Num (-3#100))) + (- (Var 0 * Num (-5#1))) - Num (18614#5) + Num (19500#1) + Num (30100#1) + Num (17801#2) + Num (-11395#1)) * Var 3 + Num (-168173#10) * Var 2 * Var 3 + Num (-728729#35) * Var 3 * Var 40 + Num (62479#35) * Var 3 * Var 41 + Num (-60200#1) * Var 3 * Var 3.
(** sources/amphibole.c 618: macro S *)
Definition oAph_ortho_s :=
  Num (-83143#10000) * (Num (2#1) * Site 1 * Log 1 + Num (2#1) * Site 4 * Log 4 + Num (2#1) * Site 0 * Log 0 + Num (3#1) * Site 2 * Log 2 + Num (3#1) * Site 5 * Log 5 + Num (2#1) * Site 3 * Log 3 + Num (2#1) * Site 6 * Log 6) + Num (-5#1).
(** sources/amphibole.c 679: macro DGDP *)
Definition oAph_ortho_v :=
  Num (-3#100) + Num (3#100) * Var 3.
(** sources/amphibole.c 655-660: macros DGDRi *)
Definition oAph_ortho_r1 :=
  [Num (83143#10000) * Var 0 * (Log 1 - Log 4 + Num (3#1) * Log 2 / Num (2#1) - Num (3#1) * Log 5 / Num (2#1) + Log 3 - Log 6) + ((- (Num (-52117#10) - Var 0 * Num (-5#1) + (Var 1 - Num (1#1)) * Num (-3#100))) / Num (2#1) + (Num (-69297#20) - Var 0 * Num (-5#1) + (Var 1 - Num (1#1)) * Num (-3#100)) / Num (2#1)) + Num (-24400#1) * Var 2 + Num (-13216307#3500) * Var 40 + Num (11919757#3500) * Var 41 + Num (-168173#10) * Var 3;
    Num (83143#10000) * Var 0 * (Num (-2#1) * Log 4 + Num (2#1) * Log 0) + ((- (Num (-52117#10) - Var 0 * Num (-5#1) + (Var 1 - Num (1#1)) * Num (-3#100))) + (- (Var 0 * Num (-5#1))) - Num (18614#5) + Num (19500#1) + Num (30100#1) + Num (17801#2) + Num (-11395#1)) + Num (-168173#10) * Var 2 + Num (-728729#35) * Var 40 + Num (62479#35) * Var 41 + Num (-120400#1) * Var 3].
(** sources/amphibole.c 666-672: macros DGDSi *)
Definition oAph_ortho_s1 :=
  [Num (83143#10000) * Var 0 * (Num (6#1) * Log 1 / Num (7#1) - Num (6#1) * Log 4 / Num (7#1) - Num (12#1) * Log 2 / Num (7#1) + Num (12#1) * Log 5 / Num (7#1) + Num (6#1) * Log 3 / Num (7#1) - Num (6#1) * Log 6 / Num (7#1)) + Num (-960741#100) + Num (-13216307#3500) * Var 2 + Num (-107620529#6125) * Var 40 + Num (52557401#6125) * Var 41 + Num (-728729#35) * Var 3;
    Num (83143#10000) * Var 0 * (Num (4#1) * Log 1 / Num (7#1) - Num (4#1) * Log 4 / Num (7#1) + Num (6#1) * Log 2 / Num (7#1) - Num (6#1) * Log 5 / Num (7#1) - Num (10#1) * Log 3 / Num (7#1) + Num (10#1) * Log 6 / Num (7#1)) + Num (-1624819#100) + Num (11919757#3500) * Var 2 + Num (52557401#6125) * Var 40 + Num (-37309773#6125) * Var 41 + Num (62479#35) * Var 3].
(** sources/amphibole.c 881: macro fillD2GDR2 *)
Definition oAph_ortho_d2gdr2 :=
  [[Num (83143#10000) * Var 0 * (Num (1#1) / (Num (2#1) * Site 1) + Num (1#1) / (Num (2#1) * Site 4) + Num (3#1) / (Num (4#1) * Site 2) + Num (3#1) / (Num (4#1) * Site 5) + Num (1#1) / (Num (2#1) * Site 3) + Num (1#1) / (Num (2#1) * Site 6)) + Num (-24400#1);
    Num (83143#10000) * Var 0 * (Num (1#1) / Site 4) + Num (-168173#10)];
    [Num (83143#10000) * Var 0 * (Num (1#1) / Site 4) + Num (-168173#10);
    Num (83143#10000) * Var 0 * (Num (2#1) / Site 4 + Num (2#1) / Site 0) + Num (-120400#1)]].
(** sources/amphibole.c 885: macro fillD2GDRDS *)
Definition oAph_ortho_d2gdrds :=
  [[Num (83143#10000) * Var 0 * (Num (3#1) / (Num (7#1) * Site 1) + Num (3#1) / (Num (7#1) * Site 4) - Num (6#1) / (Num (7#1) * Site 2) - Num (6#1) / (Num (7#1) * Site 5) + Num (3#1) / (Num (7#1) * Site 3) + Num (3#1) / (Num (7#1) * Site 6)) + Num (-13216307#3500);
    Num (83143#10000) * Var 0 * (Num (2#1) / (Num (7#1) * Site 1) + Num (2#1) / (Num (7#1) * Site 4) + Num (3#1) / (Num (7#1) * Site 2) + Num (3#1) / (Num (7#1) * Site 5) - Num (5#1) / (Num (7#1) * Site 3) - Num (5#1) / (Num (7#1) * Site 6)) + Num (11919757#3500)];
    [Num (83143#10000) * Var 0 * (Num (6#1) / (Num (7#1) * Site 4)) + Num (-728729#35);
    Num (83143#10000) * Var 0 * (Num (4#1) / (Num (7#1) * Site 4)) + Num (62479#35)]].
(** sources/amphibole.c 889: macro fillD2GDRDT *)
Definition oAph_ortho_d2gdrdt :=
  [Num (83143#10000) * (Log 1 - Log 4 + Num (3#1) * Log 2 / Num (2#1) - Num (3#1) * Log 5 / Num (2#1) + Log 3 - Log 6);
    Num (83143#10000) * (Num (-2#1) * Log 4 + Num (2#1) * Log 0)].
(** sources/amphibole.c 892: macro fillD2GDRDP *)
Definition oAph_ortho_d2gdrdp :=
  [Num (0#1);
    Num (3#100)].
(** sources/amphibole.c 895: macro fillD2GDS2 *)
Definition oAph_ortho_d2gds2 :=
  [[Num (83143#10000) * Var 0 * (Num (18#1) / (Num (49#1) * Site 1) + Num (18#1) / (Num (49#1) * Site 4) + Num (48#1) / (Num (49#1) * Site 2) + Num (48#1) / (Num (49#1) * Site 5) + Num (18#1) / (Num (49#1) * Site 3) + Num (18#1) / (Num (49#1) * Site 6)) + Num (-107620529#6125);
    Num (83143#10000) * Var 0 * (Num (12#1) / (Num (49#1) * Site 1) + Num (12#1) / (Num (49#1) * Site 4) - Num (24#1) / (Num (49#1) * Site 2) - Num (24#1) / (Num (49#1) * Site 5) - Num (30#1) / (Num (49#1) * Site 3) - Num (30#1) / (Num (49#1) * Site 6)) + Num (52557401#6125)];
    [Num (83143#10000) * Var 0 * (Num (12#1) / (Num (49#1) * Site 1) + Num (12#1) / (Num (49#1) * Site 4) - Num (24#1) / (Num (49#1) * Site 2) - Num (24#1) / (Num (49#1) * Site 5) - Num (30#1) / (Num (49#1) * Site 3) - Num (30#1) / (Num (49#1) * Site 6)) + Num (52557401#6125);
    Num (83143#10000) * Var 0 * (Num (8#1) / (Num (49#1) * Site 1) + Num (8#1) / (Num (49#1) * Site 4) + Num (12#1) / (Num (49#1) * Site 2) + Num (12#1) / (Num (49#1) * Site 5) + Num (50#1) / (Num (49#1) * Site 3) + Num (50#1) / (Num (49#1) * Site 6)) + Num (-37309773#6125)]].
(** sources/amphibole.c 899: macro fillD2GDSDT *)
Definition oAph_ortho_d2gdsdt :=
  [Num (83143#10000) * (Num (6#1) * Log 1 / Num (7#1) - Num (6#1) * Log 4 / Num (7#1) - Num (12#1) * Log 2 / Num (7#1) + Num (12#1) * Log 5 / Num (7#1) + Num (6#1) * Log 3 / Num (7#1) - Num (6#1) * Log 6 / Num (7#1));
    Num (83143#10000) * (Num (4#1) * Log 1 / Num (7#1) - Num (4#1) * Log 4 / Num (7#1) + Num (6#1) * Log 2 / Num (7#1) - Num (6#1) * Log 5 / Num (7#1) - Num (10#1) * Log 3 / Num (7#1) + Num (10#1) * Log 6 / Num (7#1))].
(** sources/amphibole.c 902: macro fillD2GDSDP *)
Definition oAph_ortho_d2gdsdp :=
  [Num (0#1);
    Num (0#1)].
(** sources/amphibole.c 905: macro fillD3GDR3 *)
Definition oAph_ortho_d3gdr3 :=
  [[[Num (83143#10000) * Var 0 * (Num (-1#1) / (Num (4#1) * Site 1 * Site 1) + Num (1#1) / (Num (4#1) * Site 4 * Site 4) - Num (3#1) / (Num (8#1) * Site 2 * Site 2) + Num (3#1) / (Num (8#1) * Site 5 * Site 5) - Num (1#1) / (Num (4#1) * Site 3 * Site 3) + Num (1#1) / (Num (4#1) * Site 6 * Site 6));
    Num (83143#10000) * Var 0 * (Num (1#1) / (Num (2#1) * Site 4 * Site 4))];
    [Num (83143#10000) * Var 0 * (Num (1#1) / (Num (2#1) * Site 4 * Site 4));
    Num (83143#10000) * Var 0 * (Num (1#1) / (Site 4 * Site 4))]];
    [[Num (83143#10000) * Var 0 * (Num (1#1) / (Num (2#1) * Site 4 * Site 4));
    Num (83143#10000) * Var 0 * (Num (1#1) / (Site 4 * Site 4))];
    [Num (83143#10000) * Var 0 * (Num (1#1) / (Site 4 * Site 4));
    Num (83143#10000) * Var 0 * (Num (2#1) / (Site 4 * Site 4) - Num (2#1) / (Site 0 * Site 0))]]].
(** sources/amphibole.c 911: macro fillD3GDR2DS *)
Definition oAph_ortho_d3gdr2ds :=
  [[[Num (83143#10000) * Var 0 * (Num (-3#1) / (Num (14#1) * Site 1 * Site 1) + Num (3#1) / (Num (14#1) * Site 4 * Site 4) + Num (12#1) / (Num (28#1) * Site 2 * Site 2) - Num (12#1) / (Num (28#1) * Site 5 * Site 5) - Num (3#1) / (Num (14#1) * Site 3 * Site 3) + Num (3#1) / (Num (14#1) * Site 6 * Site 6));
    Num (83143#10000) * Var 0 * (Num (-2#1) / (Num (14#1) * Site 1 * Site 1) + Num (2#1) / (Num (14#1) * Site 4 * Site 4) - Num (6#1) / (Num (28#1) * Site 2 * Site 2) + Num (6#1) / (Num (28#1) * Site 5 * Site 5) + Num (5#1) / (Num (14#1) * Site 3 * Site 3) - Num (5#1) / (Num (14#1) * Site 6 * Site 6))];
    [Num (83143#10000) * Var 0 * (Num (3#1) / (Num (7#1) * Site 4 * Site 4));
    Num (83143#10000) * Var 0 * (Num (2#1) / (Num (7#1) * Site 4 * Site 4))]];
    [[Num (83143#10000) * Var 0 * (Num (3#1) / (Num (7#1) * Site 4 * Site 4));
    Num (83143#10000) * Var 0 * (Num (2#1) / (Num (7#1) * Site 4 * Site 4))];
    [Num (83143#10000) * Var 0 * (Num (6#1) / (Num (7#1) * Site 4 * Site 4));
    Num (83143#10000) * Var 0 * (Num (4#1) / (Num (7#1) * Site 4 * Site 4))]]].
(** sources/amphibole.c 917: macro fillD3GDR2DT *)
Definition oAph_ortho_d3gdr2dt :=
  [[Num (83143#10000) * (Num (1#1) / (Num (2#1) * Site 1) + Num (1#1) / (Num (2#1) * Site 4) + Num (3#1) / (Num (4#1) * Site 2) + Num (3#1) / (Num (4#1) * Site 5) + Num (1#1) / (Num (2#1) * Site 3) + Num (1#1) / (Num (2#1) * Site 6));
    Num (83143#10000) * (Num (1#1) / Site 4)];
    [Num (83143#10000) * (Num (1#1) / Site 4);
    Num (83143#10000) * (Num (2#1) / Site 4 + Num (2#1) / Site 0)]].
(** sources/amphibole.c 921: macro fillD3GDR2DP *)
Definition oAph_ortho_d3gdr2dp :=
  [[Num (0#1);
    Num (0#1)];
    [Num (0#1);
    Num (0#1)]].
(** sources/amphibole.c 925: macro fillD3GDRDS2 *)
Definition oAph_ortho_d3gdrds2 :=
  [[[Num (83143#10000) * Var 0 * (Num (-9#1) / (Num (49#1) * Site 1 * Site 1) + Num (9#1) / (Num (49#1) * Site 4 * Site 4) - Num (24#1) / (Num (49#1) * Site 2 * Site 2) + Num (24#1) / (Num (49#1) * Site 5 * Site 5) - Num (9#1) / (Num (49#1) * Site 3 * Site 3) + Num (9#1) / (Num (49#1) * Site 6 * Site 6));
    Num (83143#10000) * Var 0 * (Num (-6#1) / (Num (49#1) * Site 1 * Site 1) + Num (6#1) / (Num (49#1) * Site 4 * Site 4) + Num (12#1) / (Num (49#1) * Site 2 * Site 2) - Num (12#1) / (Num (49#1) * Site 5 * Site 5) + Num (15#1) / (Num (49#1) * Site 3 * Site 3) - Num (15#1) / (Num (49#1) * Site 6 * Site 6))];
    [Num (83143#10000) * Var 0 * (Num (-6#1) / (Num (49#1) * Site 1 * Site 1) + Num (6#1) / (Num (49#1) * Site 4 * Site 4) + Num (12#1) / (Num (49#1) * Site 2 * Site 2) - Num (12#1) / (Num (49#1) * Site 5 * Site 5) + Num (15#1) / (Num (49#1) * Site 3 * Site 3) - Num (15#1) / (Num (49#1) * Site 6 * Site 6));
    Num (83143#10000) * Var 0 * (Num (-4#1) / (Num (49#1) * Site 1 * Site 1) + Num (4#1) / (Num (49#1) * Site 4 * Site 4) - Num (6#1) / (Num (49#1) * Site 2 * Site 2) + Num (6#1) / (Num (49#1) * Site 5 * Site 5) - Num (25#1) / (Num (49#1) * Site 3 * Site 3) + Num (25#1) / (Num (49#1) * Site 6 * Site 6))]];
    [[Num (83143#10000) * Var 0 * (Num (18#1) / (Num (49#1) * Site 4 * Site 4));
    Num (83143#10000) * Var 0 * (Num (12#1) / (Num (49#1) * Site 4 * Site 4))];
    [Num (83143#10000) * Var 0 * (Num (12#1) / (Num (49#1) * Site 4 * Site 4));
    Num (83143#10000) * Var 0 * (Num (8#1) / (Num (49#1) * Site 4 * Site 4))]]].
(** sources/amphibole.c 931: macro fillD3GDRDSDT *)
Definition oAph_ortho_d3gdrdsdt :=
  [[Num (83143#10000) * (Num (3#1) / (Num (7#1) * Site 1) + Num (3#1) / (Num (7#1) * Site 4) - Num (6#1) / (Num (7#1) * Site 2) - Num (6#1) / (Num (7#1) * Site 5) + Num (3#1) / (Num (7#1) * Site 3) + Num (3#1) / (Num (7#1) * Site 6));
    Num (83143#10000) * (Num (2#1) / (Num (7#1) * Site 1) + Num (2#1) / (Num (7#1) * Site 4) + Num (3#1) / (Num (7#1) * Site 2) + Num (3#1) / (Num (7#1) * Site 5) - Num (5#1) / (Num (7#1) * Site 3) - Num (5#1) / (Num (7#1) * Site 6))];
    [Num (83143#10000) * (Num (6#1) / (Num (7#1) * Site 4));
    Num (83143#10000) * (Num (4#1) / (Num (7#1) * Site 4))]].
(** sources/amphibole.c 935: macro fillD3GDRDSDP *)
Definition oAph_ortho_d3gdrdsdp :=
  [[Num (0#1);
    Num (0#1)];
    [Num (0#1);
    Num (0#1)]].
(** sources/amphibole.c 939: macro fillD3GDS3 *)
Definition oAph_ortho_d3gds3 :=
  [[[Num (83143#10000) * Var 0 * (Num (-54#1) / (Num (343#1) * Site 1 * Site 1) + Num (54#1) / (Num (343#1) * Site 4 * Site 4) + Num (192#1) / (Num (343#1) * Site 2 * Site 2) - Num (192#1) / (Num (343#1) * Site 5 * Site 5) - Num (54#1) / (Num (343#1) * Site 3 * Site 3) + Num (54#1) / (Num (343#1) * Site 6 * Site 6));
    Num (83143#10000) * Var 0 * (Num (-36#1) / (Num (343#1) * Site 1 * Site 1) + Num (36#1) / (Num (343#1) * Site 4 * Site 4) - Num (96#1) / (Num (343#1) * Site 2 * Site 2) + Num (96#1) / (Num (343#1) * Site 5 * Site 5) + Num (90#1) / (Num (343#1) * Site 3 * Site 3) - Num (90#1) / (Num (343#1) * Site 6 * Site 6))];
    [Num (83143#10000) * Var 0 * (Num (-36#1) / (Num (343#1) * Site 1 * Site 1) + Num (36#1) / (Num (343#1) * Site 4 * Site 4) - Num (96#1) / (Num (343#1) * Site 2 * Site 2) + Num (96#1) / (Num (343#1) * Site 5 * Site 5) + Num (90#1) / (Num (343#1) * Site 3 * Site 3) - Num (90#1) / (Num (343#1) * Site 6 * Site 6));
    Num (83143#10000) * Var 0 * (Num (-24#1) / (Num (343#1) * Site 1 * Site 1) + Num (24#1) / (Num (343#1) * Site 4 * Site 4) + Num (48#1) / (Num (343#1) * Site 2 * Site 2) - Num (48#1) / (Num (343#1) * Site 5 * Site 5) - Num (150#1) / (Num (343#1) * Site 3 * Site 3) + Num (150#1) / (Num (343#1) * Site 6 * Site 6))]];
    [[Num (83143#10000) * Var 0 * (Num (-36#1) / (Num (343#1) * Site 1 * Site 1) + Num (36#1) / (Num (343#1) * Site 4 * Site 4) - Num (96#1) / (Num (343#1) * Site 2 * Site 2) + Num (96#1) / (Num (343#1) * Site 5 * Site 5) + Num (90#1) / (Num (343#1) * Site 3 * Site 3) - Num (90#1) / (Num (343#1) * Site 6 * Site 6));
    Num (83143#10000) * Var 0 * (Num (-24#1) / (Num (343#1) * Site 1 * Site 1) + Num (24#1) / (Num (343#1) * Site 4 * Site 4) + Num (48#1) / (Num (343#1) * Site 2 * Site 2) - Num (48#1) / (Num (343#1) * Site 5 * Site 5) - Num (150#1) / (Num (343#1) * Site 3 * Site 3) + Num (150#1) / (Num (343#1) * Site 6 * Site 6))];
    [Num (83143#10000) * Var 0 * (Num (-24#1) / (Num (343#1) * Site 1 * Site 1) + Num (24#1) / (Num (343#1) * Site 4 * Site 4) + Num (48#1) / (Num (343#1) * Site 2 * Site 2) - Num (48#1) / (Num (343#1) * Site 5 * Site 5) - Num (150#1) / (Num (343#1) * Site 3 * Site 3) + Num (150#1) / (Num (343#1) * Site 6 * Site 6));
    Num (83143#10000) * Var 0 * (Num (-16#1) / (Num (343#1) * Site 1 * Site 1) + Num (16#1) / (Num (343#1) * Site 4 * Site 4) - Num (24#1) / (Num (343#1) * Site 2 * Site 2) + Num (24#1) / (Num (343#1) * Site 5 * Site 5) + Num (250#1) / (Num (343#1) * Site 3 * Site 3) - Num (250#1) / (Num (343#1) * Site 6 * Site 6))]]].
(** sources/amphibole.c 945: macro fillD3GDS2DT *)
Definition oAph_ortho_d3gds2dt :=
  [[Num (83143#10000) * (Num (18#1) / (Num (49#1) * Site 1) + Num (18#1) / (Num (49#1) * Site 4) + Num (48#1) / (Num (49#1) * Site 2) + Num (48#1) / (Num (49#1) * Site 5) + Num (18#1) / (Num (49#1) * Site 3) + Num (18#1) / (Num (49#1) * Site 6));
    Num (83143#10000) * (Num (12#1) / (Num (49#1) * Site 1) + Num (12#1) / (Num (49#1) * Site 4) - Num (24#1) / (Num (49#1) * Site 2) - Num (24#1) / (Num (49#1) * Site 5) - Num (30#1) / (Num (49#1) * Site 3) - Num (30#1) / (Num (49#1) * Site 6))];
    [Num (83143#10000) * (Num (12#1) / (Num (49#1) * Site 1) + Num (12#1) / (Num (49#1) * Site 4) - Num (24#1) / (Num (49#1) * Site 2) - Num (24#1) / (Num (49#1) * Site 5) - Num (30#1) / (Num (49#1) * Site 3) - Num (30#1) / (Num (49#1) * Site 6));
    Num (83143#10000) * (Num (8#1) / (Num (49#1) * Site 1) + Num (8#1) / (Num (49#1) * Site 4) + Num (12#1) / (Num (49#1) * Site 2) + Num (12#1) / (Num (49#1) * Site 5) + Num (50#1) / (Num (49#1) * Site 3) + Num (50#1) / (Num (49#1) * Site 6))]].
(** sources/amphibole.c 949: macro fillD3GDS2DP *)
Definition oAph_ortho_d3gds2dp :=
  [[Num (0#1);
    Num (0#1)];
    [Num (0#1);
    Num (0#1)]].
(** sources/amphibole.c 953: macro fillD3GDSDT2 *)
Definition oAph_ortho_d3gdsdt2 :=
  [Num (0#1);
    Num (0#1)].
(** sources/amphibole.c 956: macro fillD3GDSDTDP *)
Definition oAph_ortho_d3gdsdtdp :=
  [Num (0#1);
    Num (0#1)].
(** sources/amphibole.c 959: macro fillD3GDSDP2 *)
Definition oAph_ortho_d3gdsdp2 :=
  [Num (0#1);
    Num (0#1)].
(** sources/amphibole.c 962: macro fillD3GDRDT2 *)
Definition oAph_ortho_d3gdrdt2 :=
  [Num (0#1);
    Num (0#1)].
(** sources/amphibole.c 965: macro fillD3GDRDTDP *)
Definition oAph_ortho_d3gdrdtdp :=
  [Num (0#1);
    Num (0#1)].
(** sources/amphibole.c 968: macro fillD3GDRDP2 *)
Definition oAph_ortho_d3gdrdp2 :=
  [Num (0#1);
    Num (0#1)].
(** sources/amphibole.c 756: macro D2GDT2 *)
Definition oAph_ortho_D2GDT2 :=
  Num (0#1).
(** sources/amphibole.c 757: macro D2GDTDP *)
Definition oAph_ortho_D2GDTDP :=
  Num (0#1).
(** sources/amphibole.c 758: macro D2GDP2 *)
Definition oAph_ortho_D2GDP2 :=
  Num (0#1).
(** sources/amphibole.c 865: macro D3GDT3 *)
Definition oAph_ortho_D3GDT3 :=
  Num (0#1).
(** sources/amphibole.c 866: macro D3GDT2DP *)
Definition oAph_ortho_D3GDT2DP :=
  Num (0#1).
(** sources/amphibole.c 867: macro D3GDTDP2 *)
Definition oAph_ortho_D3GDTDP2 :=
  Num (0#1).
(** sources/amphibole.c 868: macro D3GDP3 *)
Definition oAph_ortho_D3GDP3 :=
  Num (0#1).
(** sources/amphibole.c, order: the site fractions and their clamps *)
Definition oAph_ortho_sites := [mkSite (Var 3) Free;
    mkSite ((Num (1#1) + Var 2 + Num (6#1) * Var 40 / Num (7#1) + Num (4#1) * Var 41 / Num (7#1)) / Num (2#1)) Low;
    mkSite ((Num (1#1) + Var 2 - Num (8#1) * Var 40 / Num (7#1) + Num (4#1) * Var 41 / Num (7#1)) / Num (2#1)) Low;
    mkSite ((Num (1#1) + Var 2 + Num (6#1) * Var 40 / Num (7#1) - Num (10#1) * Var 41 / Num (7#1)) / Num (2#1)) Low;
    mkSite (Num (1#1) - (Num (1#1) + Var 2 + Num (6#1) * Var 40 / Num (7#1) + Num (4#1) * Var 41 / Num (7#1)) / Num (2#1) - Var 3) Low;
    mkSite (Num (1#1) - (Num (1#1) + Var 2 - Num (8#1) * Var 40 / Num (7#1) + Num (4#1) * Var 41 / Num (7#1)) / Num (2#1)) Low;
    mkSite (Num (1#1) - (Num (1#1) + Var 2 + Num (6#1) * Var 40 / Num (7#1) - Num (10#1) * Var 41 / Num (7#1)) / Num (2#1)) Low].
Definition oAph_ortho := mkOrd "amphibole (orthorhombic)" 3 2 2 LU true oAph_ortho_sites None oAph_ortho_g oAph_ortho_s oAph_ortho_v oAph_ortho_r1 oAph_ortho_s1
  oAph_ortho_d2gdr2 oAph_ortho_d2gdrds oAph_ortho_d2gdrdt oAph_ortho_d2gdrdp oAph_ortho_d2gds2 oAph_ortho_d2gdsdt oAph_ortho_d2gdsdp oAph_ortho_d3gdr3 oAph_ortho_d3gdr2ds oAph_ortho_d3gdr2dt oAph_ortho_d3gdr2dp oAph_ortho_d3gdrds2 oAph_ortho_d3gdrdsdt oAph_ortho_d3gdrdsdp oAph_ortho_d3gds3 oAph_ortho_d3gds2dt oAph_ortho_d3gds2dp oAph_ortho_d3gdsdt2 oAph_ortho_d3gdsdtdp oAph_ortho_d3gdsdp2 oAph_ortho_d3gdrdt2 oAph_ortho_d3gdrdtdp oAph_ortho_d3gdrdp2 oAph_ortho_D2GDT2 oAph_ortho_D2GDTDP oAph_ortho_D2GDP2 oAph_ortho_D3GDT3 oAph_ortho_D3GDT2DP oAph_ortho_D3GDTDP2 oAph_ortho_D3GDP3.
(** sources/biotiteTaj.c 76: macro G *)
Definition oTaj_g :=
  (Num (3#1) * Var 2 / Num (2#1) + Var 4 + Var 5 - Num (1#1) + Var 40) * Num (-6800#1) + Num (12000#1) * (Num (2#1) - Num (3#1) * Var 2 - Num (2#1) * Var 4 + Var 5 - Num (2#1) * Var 40) * (Num (2#1) - Num (3#1) * Var 2 + Num (4#1) * Var 4 - Num (2#1) * Var 5 - Num (2#1) * Var 40) / Num (3#1) / Num (6#1) + Num (10000#1) * (Num (2#1) - Num (3#1) * Var 2 - Num (2#1) * Var 4 + Var 5 - Num (2#1) * Var 40) * Var 3 / Num (3#1) + Num (4000#1) * (Num (2#1) - Num (3#1) * Var 2 - Num (2#1) * Var 4 + Var 5 - Num (2#1) * Var 40) * (Num (3#1) * Var 2 / Num (2#1) + Var 4 + Var 5 - Num (1#1) + Var 40) / Num (3#1) + Num (3000#1) * (Num (2#1) - Num (3#1) * Var 2 + Num (4#1) * Var 4 - Num (2#1) * Var 5 - Num (2#1) * Var 40) * Var 3 / Num (6#1) + Num (8000#1) * (Num (2#1) - Num (3#1) * Var 2 + Num (4#1) * Var 4 - Num (2#1) * Var 5 - Num (2#1) * Var 40) * (Num (3#1) * Var 2 / Num (2#1) + Var 4 + Var 5 - Num (1#1) + Var 40) / Num (6#1) + Num (7000#1) * Var 3 * (Num (3#1) * Var 2 / Num (2#1) + Var 4 + Var 5 - Num (1#1) + Var 40) - Var 0 * (Num (-83143#10000) * (Site 0 * Log 0 + Site 1 * Log 1 + Site 2 * Log 2 + Site 3 * Log 3 + Num (2#1) * Site 4 * Log 4 + Num (2#1) * Site 5 * Log 5 + Num (2#1) * Site 6 * Log 6 + Num (2#1) * Site 7 * Log 7 + Num (2#1) * Site 8 * Log 8 + Num (2#1) * Site 9 * Log 9 + Num (2#1) * Site 10 * Log 10)).
(** sources/biotiteTaj.c 62: macro S *)
Definition oTaj_s :=
  Num (-83143#10000) * (Site 0 * Log 0 + Site 1 * Log 1 + Site 2 * Log 2 + Site 3 * Log 3 + Num (2#1) * Site 4 * Log 4 + Num (2#1) * Site 5 * Log 5 + Num (2#1) * Site 6 * Log 6 + Num (2#1) * Site 7 * Log 7 + Num (2#1) * Site 8 * Log 8 + Num (2#1) * Site 9 * Log 9 + Num (2#1) * Site 10 * Log 10).
(** sources/biotiteTaj.c 128: macro DGDP *)
Definition oTaj_v :=
  Num (0#1).
(** sources/biotiteTaj.c 78-105: macros DGDRi *)
Definition oTaj_r1 :=
  [Num (83143#10000) * Var 0 * ((- Log 0) + Log 3 + Log 4 - Log 6 - Log 7 + Log 8 - Num (2#1) * Log 9 + Num (2#1) * Log 10) + Num (-10200#1) - Num (36000#1) * (Num (2#1) - Num (3#1) * Var 2 + Num (4#1) * Var 4 - Num (2#1) * Var 5 - Num (2#1) * Var 40) / Num (3#1) / Num (6#1) - Num (36000#1) * (Num (2#1) - Num (3#1) * Var 2 - Num (2#1) * Var 4 + Var 5 - Num (2#1) * Var 40) / Num (3#1) / Num (6#1) - Num (30000#1) * Var 3 / Num (3#1) - Num (12000#1) * (Num (3#1) * Var 2 / Num (2#1) + Var 4 + Var 5 - Num (1#1) + Var 40) / Num (3#1) + Num (12000#1) * (Num (2#1) - Num (3#1) * Var 2 - Num (2#1) * Var 4 + Var 5 - Num (2#1) * Var 40) / Num (3#1) / Num (2#1) - Num (9000#1) * Var 3 / Num (6#1) - Num (24000#1) * (Num (3#1) * Var 2 / Num (2#1) + Var 4 + Var 5 - Num (1#1) + Var 40) / Num (6#1) + Num (24000#1) * (Num (2#1) - Num (3#1) * Var 2 + Num (4#1) * Var 4 - Num (2#1) * Var 5 - Num (2#1) * Var 40) / Num (6#1) / Num (2#1) + Num (21000#1) * Var 3 / Num (2#1);
    Num (83143#10000) * Var 0 * ((- Log 0) + Log 1) + Num (10000#1) * (Num (2#1) - Num (3#1) * Var 2 - Num (2#1) * Var 4 + Var 5 - Num (2#1) * Var 40) / Num (3#1) + Num (3000#1) * (Num (2#1) - Num (3#1) * Var 2 + Num (4#1) * Var 4 - Num (2#1) * Var 5 - Num (2#1) * Var 40) / Num (6#1) + Num (7000#1) * (Num (3#1) * Var 2 / Num (2#1) + Var 4 + Var 5 - Num (1#1) + Var 40);
    Num (83143#10000) * Var 0 * ((- Log 0) - Num (2#1) * Log 2 / Num (3#1) + Num (5#1) * Log 3 / Num (3#1) - Num (4#1) * Log 5 / Num (3#1) + Num (4#1) * Log 6 / Num (3#1) - Log 7 + Log 8) + Num (-6800#1) - Num (24000#1) * (Num (2#1) - Num (3#1) * Var 2 + Num (4#1) * Var 4 - Num (2#1) * Var 5 - Num (2#1) * Var 40) / Num (3#1) / Num (6#1) + Num (48000#1) * (Num (2#1) - Num (3#1) * Var 2 - Num (2#1) * Var 4 + Var 5 - Num (2#1) * Var 40) / Num (3#1) / Num (6#1) - Num (20000#1) * Var 3 / Num (3#1) - Num (8000#1) * (Num (3#1) * Var 2 / Num (2#1) + Var 4 + Var 5 - Num (1#1) + Var 40) / Num (3#1) + Num (4000#1) * (Num (2#1) - Num (3#1) * Var 2 - Num (2#1) * Var 4 + Var 5 - Num (2#1) * Var 40) / Num (3#1) + Num (12000#1) * Var 3 / Num (6#1) + Num (32000#1) * (Num (3#1) * Var 2 / Num (2#1) + Var 4 + Var 5 - Num (1#1) + Var 40) / Num (6#1) + Num (8000#1) * (Num (2#1) - Num (3#1) * Var 2 + Num (4#1) * Var 4 - Num (2#1) * Var 5 - Num (2#1) * Var 40) / Num (6#1) + Num (7000#1) * Var 3;
    Num (83143#10000) * Var 0 * ((- Log 0) + Log 2 / Num (3#1) + Num (2#1) * Log 3 / Num (3#1) + Num (2#1) * Log 5 / Num (3#1) - Num (2#1) * Log 6 / Num (3#1) - Log 7 + Log 8) + Num (-6800#1) + Num (12000#1) * (Num (2#1) - Num (3#1) * Var 2 + Num (4#1) * Var 4 - Num (2#1) * Var 5 - Num (2#1) * Var 40) / Num (3#1) / Num (6#1) - Num (24000#1) * (Num (2#1) - Num (3#1) * Var 2 - Num (2#1) * Var 4 + Var 5 - Num (2#1) * Var 40) / Num (3#1) / Num (6#1) + Num (10000#1) * Var 3 / Num (3#1) + Num (4000#1) * (Num (3#1) * Var 2 / Num (2#1) + Var 4 + Var 5 - Num (1#1) + Var 40) / Num (3#1) + Num (4000#1) * (Num (2#1) - Num (3#1) * Var 2 - Num (2#1) * Var 4 + Var 5 - Num (2#1) * Var 40) / Num (3#1) - Num (6000#1) * Var 3 / Num (6#1) - Num (16000#1) * (Num (3#1) * Var 2 / Num (2#1) + Var 4 + Var 5 - Num (1#1) + Var 40) / Num (6#1) + Num (8000#1) * (Num (2#1) - Num (3#1) * Var 2 + Num (4#1) * Var 4 - Num (2#1) * Var 5 - Num (2#1) * Var 40) / Num (6#1) + Num (7000#1) * Var 3].
(** sources/biotiteTaj.c 116: macros DGDSi *)
Definition oTaj_s1 :=
  [Num (83143#10000) * Var 0 * (Num (-2#1) * Log 2 / Num (3#1) + Num (2#1) * Log 3 / Num (3#1) + Num (2#1) * Log 5 / Num (3#1) - Num (2#1) * Log 6 / Num (3#1)) + Num (-6800#1) - Num (24000#1) * (Num (2#1) - Num (3#1) * Var 2 + Num (4#1) * Var 4 - Num (2#1) * Var 5 - Num (2#1) * Var 40) / Num (3#1) / Num (6#1) - Num (24000#1) * (Num (2#1) - Num (3#1) * Var 2 - Num (2#1) * Var 4 + Var 5 - Num (2#1) * Var 40) / Num (3#1) / Num (6#1) - Num (20000#1) * Var 3 / Num (3#1) - Num (8000#1) * (Num (3#1) * Var 2 / Num (2#1) + Var 4 + Var 5 - Num (1#1) + Var 40) / Num (3#1) + Num (4000#1) * (Num (2#1) - Num (3#1) * Var 2 - Num (2#1) * Var 4 + Var 5 - Num (2#1) * Var 40) / Num (3#1) - Num (6000#1) * Var 3 / Num (6#1) - Num (16000#1) * (Num (3#1) * Var 2 / Num (2#1) + Var 4 + Var 5 - Num (1#1) + Var 40) / Num (6#1) + Num (8000#1) * (Num (2#1) - Num (3#1) * Var 2 + Num (4#1) * Var 4 - Num (2#1) * Var 5 - Num (2#1) * Var 40) / Num (6#1) + Num (7000#1) * Var 3].
(** sources/biotiteTaj.c 290: macro fillD2GDR2 *)
Definition oTaj_d2gdr2 :=
  [[Num (83143#10000) * Var 0 * (Num (1#1) / Site 0 + Num (1#1) / Site 3 + Num (1#1) / Site 4 / Num (2#1) + Num (1#1) / Site 6 / Num (2#1) + Num (1#1) / Site 7 / Num (2#1) + Num (1#1) / Site 8 / Num (2#1) + Num (2#1) / Site 9 + Num (2#1) / Site 10) + Num (6000#1) + Num (6000#1) - Num (6000#1) - Num (6000#1) - Num (6000#1) - Num (6000#1);
    Num (83143#10000) * Var 0 * (Num (1#1) / Site 0) - Num (10000#1) - Num (1500#1) + Num (10500#1);
    Num (83143#10000) * Var 0 * (Num (1#1) / Site 0 + Num (5#1) / Site 3 / Num (3#1) - Num (2#1) / Site 6 / Num (3#1) + Num (1#1) / Site 7 / Num (2#1) + Num (1#1) / Site 8 / Num (2#1)) - Num (8000#1) + Num (4000#1) - Num (4000#1) - Num (4000#1) - Num (4000#1) + Num (8000#1);
    Num (83143#10000) * Var 0 * (Num (1#1) / Site 0 + Num (2#1) / Site 3 / Num (3#1) + Num (1#1) / Site 6 / Num (3#1) + Num (1#1) / Site 7 / Num (2#1) + Num (1#1) / Site 8 / Num (2#1)) + Num (4000#1) - Num (2000#1) - Num (4000#1) + Num (2000#1) - Num (4000#1) - Num (4000#1)];
    [Num (83143#10000) * Var 0 * (Num (1#1) / Site 0) - Num (10000#1) - Num (1500#1) + Num (10500#1);
    Num (83143#10000) * Var 0 * (Num (1#1) / Site 0 + Num (1#1) / Site 1);
    Num (83143#10000) * Var 0 * (Num (1#1) / Site 0) - Num (20000#3) + Num (2000#1) + Num (7000#1);
    Num (83143#10000) * Var 0 * (Num (1#1) / Site 0) + Num (10000#3) - Num (1000#1) + Num (7000#1)];
    [Num (83143#10000) * Var 0 * (Num (1#1) / Site 0 + Num (5#1) / Site 3 / Num (3#1) - Num (2#1) / Site 6 / Num (3#1) + Num (1#1) / Site 7 / Num (2#1) + Num (1#1) / Site 8 / Num (2#1)) - Num (8000#1) + Num (4000#1) - Num (4000#1) - Num (4000#1) - Num (4000#1) + Num (8000#1);
    Num (83143#10000) * Var 0 * (Num (1#1) / Site 0) - Num (20000#3) + Num (2000#1) + Num (7000#1);
    Num (83143#10000) * Var 0 * (Num (1#1) / Site 0 + Num (4#1) / Site 2 / Num (9#1) + Num (25#1) / Site 3 / Num (9#1) + Num (8#1) / Site 5 / Num (9#1) + Num (8#1) / Site 6 / Num (9#1) + Num (1#1) / Site 7 / Num (2#1) + Num (1#1) / Site 8 / Num (2#1)) - Num (16000#3) - Num (16000#3) - Num (8000#3) - Num (8000#3) + Num (16000#3) + Num (16000#3);
    Num (83143#10000) * Var 0 * (Num (1#1) / Site 0 - Num (2#1) / Site 2 / Num (9#1) + Num (10#1) / Site 3 / Num (9#1) - Num (4#1) / Site 5 / Num (9#1) - Num (4#1) / Site 6 / Num (9#1) + Num (1#1) / Site 7 / Num (2#1) + Num (1#1) / Site 8 / Num (2#1)) + Num (8000#3) + Num (8000#3) - Num (8000#3) + Num (4000#3) + Num (16000#3) - Num (8000#3)];
    [Num (83143#10000) * Var 0 * (Num (1#1) / Site 0 + Num (2#1) / Site 3 / Num (3#1) + Num (1#1) / Site 6 / Num (3#1) + Num (1#1) / Site 7 / Num (2#1) + Num (1#1) / Site 8 / Num (2#1)) + Num (4000#1) - Num (2000#1) - Num (4000#1) + Num (2000#1) - Num (4000#1) - Num (4000#1);
    Num (83143#10000) * Var 0 * (Num (1#1) / Site 0) + Num (10000#3) - Num (1000#1) + Num (7000#1);
    Num (83143#10000) * Var 0 * (Num (1#1) / Site 0 - Num (2#1) / Site 2 / Num (9#1) + Num (10#1) / Site 3 / Num (9#1) - Num (4#1) / Site 5 / Num (9#1) - Num (4#1) / Site 6 / Num (9#1) + Num (1#1) / Site 7 / Num (2#1) + Num (1#1) / Site 8 / Num (2#1)) + Num (8000#3) + Num (8000#3) - Num (8000#3) + Num (4000#3) + Num (16000#3) - Num (8000#3);
    Num (83143#10000) * Var 0 * (Num (1#1) / Site 0 + Num (1#1) / Site 2 / Num (9#1) + Num (4#1) / Site 3 / Num (9#1) + Num (2#1) / Site 5 / Num (9#1) + Num (2#1) / Site 6 / Num (9#1) + Num (1#1) / Site 7 / Num (2#1) + Num (1#1) / Site 8 / Num (2#1)) - Num (4000#3) - Num (4000#3) + Num (4000#3) + Num (4000#3) - Num (8000#3) - Num (8000#3)]].
(** sources/biotiteTaj.c 300: macro fillD2GDRDS *)
Definition oTaj_d2gdrds :=
  [[Num (83143#10000) * Var 0 * (Num (2#1) / Site 3 / Num (3#1) + Num (1#1) / Site 6 / Num (3#1)) + Num (4000#1) + Num (4000#1) - Num (4000#1) - Num (4000#1) - Num (4000#1) - Num (4000#1)];
    [Num (-2000#3)];
    [Num (83143#10000) * Var 0 * (Num (4#1) / Site 2 / Num (9#1) + Num (10#1) / Site 3 / Num (9#1) - Num (4#1) / Site 5 / Num (9#1) - Num (4#1) / Site 6 / Num (9#1)) + Num (8000#3) - Num (16000#3) - Num (8000#3) - Num (8000#3) + Num (16000#3) - Num (8000#3)];
    [Num (83143#10000) * Var 0 * (Num (-2#1) / Site 2 / Num (9#1) + Num (4#1) / Site 3 / Num (9#1) + Num (2#1) / Site 5 / Num (9#1) + Num (2#1) / Site 6 / Num (9#1)) - Num (4000#3) + Num (8000#3) + Num (4000#3) - Num (8000#3) - Num (8000#3) - Num (8000#3)]].
(** sources/biotiteTaj.c 306: macro fillD2GDRDT *)
Definition oTaj_d2gdrdt :=
  [Num (83143#10000) * ((- Log 0) + Log 3 + Log 4 - Log 6 - Log 7 + Log 8 - Num (2#1) * Log 9 + Num (2#1) * Log 10);
    Num (83143#10000) * ((- Log 0) + Log 1);
    Num (83143#10000) * ((- Log 0) - Num (2#1) * Log 2 / Num (3#1) + Num (5#1) * Log 3 / Num (3#1) - Num (4#1) * Log 5 / Num (3#1) + Num (4#1) * Log 6 / Num (3#1) - Log 7 + Log 8);
    Num (83143#10000) * ((- Log 0) + Log 2 / Num (3#1) + Num (2#1) * Log 3 / Num (3#1) + Num (2#1) * Log 5 / Num (3#1) - Num (2#1) * Log 6 / Num (3#1) - Log 7 + Log 8)].
(** sources/biotiteTaj.c 310: macro fillD2GDRDP *)
Definition oTaj_d2gdrdp :=
  [Num (0#1);
    Num (0#1);
    Num (0#1);
    Num (0#1)].
(** sources/biotiteTaj.c 314: macro fillD2GDS2 *)
Definition oTaj_d2gds2 :=
  [[Num (83143#10000) * Var 0 * (Num (4#1) / Site 2 / Num (9#1) + Num (4#1) / Site 3 / Num (9#1) + Num (2#1) / Site 5 / Num (9#1) + Num (2#1) / Site 6 / Num (9#1)) + Num (8000#3) + Num (8000#3) - Num (8000#3) - Num (8000#3) - Num (8000#3) - Num (8000#3)]].
(** sources/biotiteTaj.c 317: macro fillD2GDSDT *)
Definition oTaj_d2gdsdt :=
  [Num (83143#10000) * (Num (-2#1) * Log 2 / Num (3#1) + Num (2#1) * Log 3 / Num (3#1) + Num (2#1) * Log 5 / Num (3#1) - Num (2#1) * Log 6 / Num (3#1))].
(** sources/biotiteTaj.c 320: macro fillD2GDSDP *)
Definition oTaj_d2gdsdp :=
  [Num (0#1)].
(** sources/biotiteTaj.c 323: macro fillD3GDR3 *)
Definition oTaj_d3gdr3 :=
  [[[Num (-83143#10000) * Var 0 * (Num (-1#1) / Site 0 / Site 0 + Num (1#1) / Site 3 / Site 3 + Num (1#1) / Site 4 / Site 4 / Num (4#1) - Num (1#1) / Site 6 / Site 6 / Num (4#1) - Num (1#1) / Site 7 / Site 7 / Num (4#1) + Num (1#1) / Site 8 / Site 8 / Num (4#1) - Num (2#1) / Site 9 / Site 9 + Num (2#1) / Site 10 / Site 10);
    Num (-83143#10000) * Var 0 * (Num (-1#1) / Site 0 / Site 0);
    Num (-83143#10000) * Var 0 * (Num (-1#1) / Site 0 / Site 0 + Num (5#1) / Site 3 / Site 3 / Num (3#1) + Num (2#1) / Site 6 / Site 6 / Num (6#1) - Num (1#1) / Site 7 / Site 7 / Num (4#1) + Num (1#1) / Site 8 / Site 8 / Num (4#1));
    Num (-83143#10000) * Var 0 * (Num (-1#1) / Site 0 / Site 0 + Num (2#1) / Site 3 / Site 3 / Num (3#1) - Num (1#1) / Site 6 / Site 6 / Num (6#1) - Num (1#1) / Site 7 / Site 7 / Num (4#1) + Num (1#1) / Site 8 / Site 8 / Num (4#1))];
    [Num (-83143#10000) * Var 0 * (Num (-1#1) / Site 0 / Site 0);
    Num (-83143#10000) * Var 0 * (Num (-1#1) / Site 0 / Site 0);
    Num (-83143#10000) * Var 0 * (Num (-1#1) / Site 0 / Site 0);
    Num (-83143#10000) * Var 0 * (Num (-1#1) / Site 0 / Site 0)];
    [Num (-83143#10000) * Var 0 * (Num (-1#1) / Site 0 / Site 0 + Num (5#1) / Site 3 / Site 3 / Num (3#1) + Num (2#1) / Site 6 / Site 6 / Num (6#1) - Num (1#1) / Site 7 / Site 7 / Num (4#1) + Num (1#1) / Site 8 / Site 8 / Num (4#1));
    Num (-83143#10000) * Var 0 * (Num (-1#1) / Site 0 / Site 0);
    Num (-83143#10000) * Var 0 * (Num (-1#1) / Site 0 / Site 0 + Num (25#1) / Site 3 / Site 3 / Num (9#1) - Num (4#1) / Site 6 / Site 6 / Num (9#1) - Num (1#1) / Site 7 / Site 7 / Num (4#1) + Num (1#1) / Site 8 / Site 8 / Num (4#1));
    Num (-83143#10000) * Var 0 * (Num (-1#1) / Site 0 / Site 0 + Num (10#1) / Site 3 / Site 3 / Num (9#1) + Num (2#1) / Site 6 / Site 6 / Num (9#1) - Num (1#1) / Site 7 / Site 7 / Num (4#1) + Num (1#1) / Site 8 / Site 8 / Num (4#1))];
    [Num (-83143#10000) * Var 0 * (Num (-1#1) / Site 0 / Site 0 + Num (2#1) / Site 3 / Site 3 / Num (3#1) - Num (1#1) / Site 6 / Site 6 / Num (6#1) - Num (1#1) / Site 7 / Site 7 / Num (4#1) + Num (1#1) / Site 8 / Site 8 / Num (4#1));
    Num (-83143#10000) * Var 0 * (Num (-1#1) / Site 0 / Site 0);
    Num (-83143#10000) * Var 0 * (Num (-1#1) / Site 0 / Site 0 + Num (10#1) / Site 3 / Site 3 / Num (9#1) + Num (2#1) / Site 6 / Site 6 / Num (9#1) - Num (1#1) / Site 7 / Site 7 / Num (4#1) + Num (1#1) / Site 8 / Site 8 / Num (4#1));
    Num (-83143#10000) * Var 0 * (Num (-1#1) / Site 0 / Site 0 + Num (4#1) / Site 3 / Site 3 / Num (9#1) - Num (1#1) / Site 6 / Site 6 / Num (9#1) - Num (1#1) / Site 7 / Site 7 / Num (4#1) + Num (1#1) / Site 8 / Site 8 / Num (4#1))]];
    [[Num (-83143#10000) * Var 0 * (Num (-1#1) / Site 0 / Site 0);
    Num (-83143#10000) * Var 0 * (Num (-1#1) / Site 0 / Site 0);
    Num (-83143#10000) * Var 0 * (Num (-1#1) / Site 0 / Site 0);
    Num (-83143#10000) * Var 0 * (Num (-1#1) / Site 0 / Site 0)];
    [Num (-83143#10000) * Var 0 * (Num (-1#1) / Site 0 / Site 0);
    Num (-83143#10000) * Var 0 * (Num (-1#1) / Site 0 / Site 0 + Num (1#1) / Site 1 / Site 1);
    Num (-83143#10000) * Var 0 * (Num (-1#1) / Site 0 / Site 0);
    Num (-83143#10000) * Var 0 * (Num (-1#1) / Site 0 / Site 0)];
    [Num (-83143#10000) * Var 0 * (Num (-1#1) / Site 0 / Site 0);
    Num (-83143#10000) * Var 0 * (Num (-1#1) / Site 0 / Site 0);
    Num (-83143#10000) * Var 0 * (Num (-1#1) / Site 0 / Site 0);
    Num (-83143#10000) * Var 0 * (Num (-1#1) / Site 0 / Site 0)];
    [Num (-83143#10000) * Var 0 * (Num (-1#1) / Site 0 / Site 0);
    Num (-83143#10000) * Var 0 * (Num (-1#1) / Site 0 / Site 0);
    Num (-83143#10000) * Var 0 * (Num (-1#1) / Site 0 / Site 0);
    Num (-83143#10000) * Var 0 * (Num (-1#1) / Site 0 / Site 0)]];
    [[Num (-83143#10000) * Var 0 * (Num (-1#1) / Site 0 / Site 0 + Num (5#1) / Site 3 / Site 3 / Num (3#1) + Num (2#1) / Site 6 / Site 6 / Num (6#1) - Num (1#1) / Site 7 / Site 7 / Num (4#1) + Num (1#1) / Site 8 / Site 8 / Num (4#1));
    Num (-83143#10000) * Var 0 * (Num (-1#1) / Site 0 / Site 0);
    Num (-83143#10000) * Var 0 * (Num (-1#1) / Site 0 / Site 0 + Num (25#1) / Site 3 / Site 3 / Num (9#1) - Num (4#1) / Site 6 / Site 6 / Num (9#1) - Num (1#1) / Site 7 / Site 7 / Num (4#1) + Num (1#1) / Site 8 / Site 8 / Num (4#1));
    Num (-83143#10000) * Var 0 * (Num (-1#1) / Site 0 / Site 0 + Num (10#1) / Site 3 / Site 3 / Num (9#1) + Num (2#1) / Site 6 / Site 6 / Num (9#1) - Num (1#1) / Site 7 / Site 7 / Num (4#1) + Num (1#1) / Site 8 / Site 8 / Num (4#1))];
    [Num (-83143#10000) * Var 0 * (Num (-1#1) / Site 0 / Site 0);
    Num (-83143#10000) * Var 0 * (Num (-1#1) / Site 0 / Site 0);
    Num (-83143#10000) * Var 0 * (Num (-1#1) / Site 0 / Site 0);
    Num (-83143#10000) * Var 0 * (Num (-1#1) / Site 0 / Site 0)];
    [Num (-83143#10000) * Var 0 * (Num (-1#1) / Site 0 / Site 0 + Num (25#1) / Site 3 / Site 3 / Num (9#1) - Num (4#1) / Site 6 / Site 6 / Num (9#1) - Num (1#1) / Site 7 / Site 7 / Num (4#1) + Num (1#1) / Site 8 / Site 8 / Num (4#1));
    Num (-83143#10000) * Var 0 * (Num (-1#1) / Site 0 / Site 0);
    Num (-83143#10000) * Var 0 * (Num (-1#1) / Site 0 / Site 0 - Num (8#1) / Site 2 / Site 2 / Num (27#1) + Num (125#1) / Site 3 / Site 3 / Num (27#1) - Num (16#1) / Site 5 / Site 5 / Num (27#1) + Num (16#1) / Site 6 / Site 6 / Num (27#1) - Num (1#1) / Site 7 / Site 7 / Num (4#1) + Num (1#1) / Site 8 / Site 8 / Num (4#1));
    Num (-83143#10000) * Var 0 * (Num (-1#1) / Site 0 / Site 0 + Num (4#1) / Site 2 / Site 2 / Num (27#1) + Num (50#1) / Site 3 / Site 3 / Num (27#1) + Num (8#1) / Site 5 / Site 5 / Num (27#1) - Num (8#1) / Site 6 / Site 6 / Num (27#1) - Num (1#1) / Site 7 / Site 7 / Num (4#1) + Num (1#1) / Site 8 / Site 8 / Num (4#1))];
    [Num (-83143#10000) * Var 0 * (Num (-1#1) / Site 0 / Site 0 + Num (10#1) / Site 3 / Site 3 / Num (9#1) + Num (2#1) / Site 6 / Site 6 / Num (9#1) - Num (1#1) / Site 7 / Site 7 / Num (4#1) + Num (1#1) / Site 8 / Site 8 / Num (4#1));
    Num (-83143#10000) * Var 0 * (Num (-1#1) / Site 0 / Site 0);
    Num (-83143#10000) * Var 0 * (Num (-1#1) / Site 0 / Site 0 + Num (4#1) / Site 2 / Site 2 / Num (27#1) + Num (50#1) / Site 3 / Site 3 / Num (27#1) + Num (8#1) / Site 5 / Site 5 / Num (27#1) - Num (8#1) / Site 6 / Site 6 / Num (27#1) - Num (1#1) / Site 7 / Site 7 / Num (4#1) + Num (1#1) / Site 8 / Site 8 / Num (4#1));
    Num (-83143#10000) * Var 0 * (Num (-1#1) / Site 0 / Site 0 - Num (2#1) / Site 2 / Site 2 / Num (27#1) + Num (20#1) / Site 3 / Site 3 / Num (27#1) - Num (4#1) / Site 5 / Site 5 / Num (27#1) + Num (4#1) / Site 6 / Site 6 / Num (27#1) - Num (1#1) / Site 7 / Site 7 / Num (4#1) + Num (1#1) / Site 8 / Site 8 / Num (4#1))]];
    [[Num (-83143#10000) * Var 0 * (Num (-1#1) / Site 0 / Site 0 + Num (2#1) / Site 3 / Site 3 / Num (3#1) - Num (1#1) / Site 6 / Site 6 / Num (6#1) - Num (1#1) / Site 7 / Site 7 / Num (4#1) + Num (1#1) / Site 8 / Site 8 / Num (4#1));
    Num (-83143#10000) * Var 0 * (Num (-1#1) / Site 0 / Site 0);
    Num (-83143#10000) * Var 0 * (Num (-1#1) / Site 0 / Site 0 + Num (10#1) / Site 3 / Site 3 / Num (9#1) + Num (2#1) / Site 6 / Site 6 / Num (9#1) - Num (1#1) / Site 7 / Site 7 / Num (4#1) + Num (1#1) / Site 8 / Site 8 / Num (4#1));
    Num (-83143#10000) * Var 0 * (Num (-1#1) / Site 0 / Site 0 + Num (4#1) / Site 3 / Site 3 / Num (9#1) - Num (1#1) / Site 6 / Site 6 / Num (9#1) - Num (1#1) / Site 7 / Site 7 / Num (4#1) + Num (1#1) / Site 8 / Site 8 / Num (4#1))];
    [Num (-83143#10000) * Var 0 * (Num (-1#1) / Site 0 / Site 0);
    Num (-83143#10000) * Var 0 * (Num (-1#1) / Site 0 / Site 0);
    Num (-83143#10000) * Var 0 * (Num (-1#1) / Site 0 / Site 0);
    Num (-83143#10000) * Var 0 * (Num (-1#1) / Site 0 / Site 0)];
    [Num (-83143#10000) * Var 0 * (Num (-1#1) / Site 0 / Site 0 + Num (10#1) / Site 3 / Site 3 / Num (9#1) + Num (2#1) / Site 6 / Site 6 / Num (9#1) - Num (1#1) / Site 7 / Site 7 / Num (4#1) + Num (1#1) / Site 8 / Site 8 / Num (4#1));
    Num (-83143#10000) * Var 0 * (Num (-1#1) / Site 0 / Site 0);
    Num (-83143#10000) * Var 0 * (Num (-1#1) / Site 0 / Site 0 + Num (4#1) / Site 2 / Site 2 / Num (27#1) + Num (50#1) / Site 3 / Site 3 / Num (27#1) + Num (8#1) / Site 5 / Site 5 / Num (27#1) - Num (8#1) / Site 6 / Site 6 / Num (27#1) - Num (1#1) / Site 7 / Site 7 / Num (4#1) + Num (1#1) / Site 8 / Site 8 / Num (4#1));
    Num (-83143#10000) * Var 0 * (Num (-1#1) / Site 0 / Site 0 - Num (2#1) / Site 2 / Site 2 / Num (27#1) + Num (20#1) / Site 3 / Site 3 / Num (27#1) - Num (4#1) / Site 5 / Site 5 / Num (27#1) + Num (4#1) / Site 6 / Site 6 / Num (27#1) - Num (1#1) / Site 7 / Site 7 / Num (4#1) + Num (1#1) / Site 8 / Site 8 / Num (4#1))];
    [Num (-83143#10000) * Var 0 * (Num (-1#1) / Site 0 / Site 0 + Num (4#1) / Site 3 / Site 3 / Num (9#1) - Num (1#1) / Site 6 / Site 6 / Num (9#1) - Num (1#1) / Site 7 / Site 7 / Num (4#1) + Num (1#1) / Site 8 / Site 8 / Num (4#1));
    Num (-83143#10000) * Var 0 * (Num (-1#1) / Site 0 / Site 0);
    Num (-83143#10000) * Var 0 * (Num (-1#1) / Site 0 / Site 0 - Num (2#1) / Site 2 / Site 2 / Num (27#1) + Num (20#1) / Site 3 / Site 3 / Num (27#1) - Num (4#1) / Site 5 / Site 5 / Num (27#1) + Num (4#1) / Site 6 / Site 6 / Num (27#1) - Num (1#1) / Site 7 / Site 7 / Num (4#1) + Num (1#1) / Site 8 / Site 8 / Num (4#1));
    Num (-83143#10000) * Var 0 * (Num (-1#1) / Site 0 / Site 0 + Num (1#1) / Site 2 / Site 2 / Num (27#1) + Num (8#1) / Site 3 / Site 3 / Num (27#1) + Num (2#1) / Site 5 / Site 5 / Num (27#1) - Num (2#1) / Site 6 / Site 6 / Num (27#1) - Num (1#1) / Site 7 / Site 7 / Num (4#1) + Num (1#1) / Site 8 / Site 8 / Num (4#1))]]].
(** sources/biotiteTaj.c 357: macro fillD3GDR2DS *)
Definition oTaj_d3gdr2ds :=
  [[[Num (-83143#10000) * Var 0 * (Num (2#1) / Site 3 / Site 3 / Num (3#1) - Num (1#1) / Site 6 / Site 6 / Num (6#1))];
    [Num (0#1)];
    [Num (-83143#10000) * Var 0 * (Num (10#1) / Site 3 / Site 3 / Num (9#1) + Num (2#1) / Site 6 / Site 6 / Num (9#1))];
    [Num (-83143#10000) * Var 0 * (Num (4#1) / Site 3 / Site 3 / Num (9#1) - Num (1#1) / Site 6 / Site 6 / Num (9#1))]];
    [[Num (0#1)];
    [Num (0#1)];
    [Num (0#1)];
    [Num (0#1)]];
    [[Num (-83143#10000) * Var 0 * (Num (10#1) / Site 3 / Site 3 / Num (9#1) + Num (2#1) / Site 6 / Site 6 / Num (9#1))];
    [Num (0#1)];
    [Num (-83143#10000) * Var 0 * (Num (-8#1) / Site 2 / Site 2 / Num (27#1) + Num (50#1) / Site 3 / Site 3 / Num (27#1) + Num (8#1) / Site 5 / Site 5 / Num (27#1) - Num (8#1) / Site 6 / Site 6 / Num (27#1))];
    [Num (-83143#10000) * Var 0 * (Num (4#1) / Site 2 / Site 2 / Num (27#1) + Num (20#1) / Site 3 / Site 3 / Num (27#1) - Num (4#1) / Site 5 / Site 5 / Num (27#1) + Num (4#1) / Site 6 / Site 6 / Num (27#1))]];
    [[Num (-83143#10000) * Var 0 * (Num (4#1) / Site 3 / Site 3 / Num (9#1) - Num (1#1) / Site 6 / Site 6 / Num (9#1))];
    [Num (0#1)];
    [Num (-83143#10000) * Var 0 * (Num (4#1) / Site 2 / Site 2 / Num (27#1) + Num (20#1) / Site 3 / Site 3 / Num (27#1) - Num (4#1) / Site 5 / Site 5 / Num (27#1) + Num (4#1) / Site 6 / Site 6 / Num (27#1))];
    [Num (-83143#10000) * Var 0 * (Num (-2#1) / Site 2 / Site 2 / Num (27#1) + Num (8#1) / Site 3 / Site 3 / Num (27#1) + Num (2#1) / Site 5 / Site 5 / Num (27#1) - Num (2#1) / Site 6 / Site 6 / Num (27#1))]]].
(** sources/biotiteTaj.c 375: macro fillD3GDR2DT *)
Definition oTaj_d3gdr2dt :=
  [[Num (83143#10000) * (Num (1#1) / Site 0 + Num (1#1) / Site 3 + Num (1#1) / Site 4 / Num (2#1) + Num (1#1) / Site 6 / Num (2#1) + Num (1#1) / Site 7 / Num (2#1) + Num (1#1) / Site 8 / Num (2#1) + Num (2#1) / Site 9 + Num (2#1) / Site 10);
    Num (83143#10000) * (Num (1#1) / Site 0);
    Num (83143#10000) * (Num (1#1) / Site 0 + Num (5#1) / Site 3 / Num (3#1) - Num (2#1) / Site 6 / Num (3#1) + Num (1#1) / Site 7 / Num (2#1) + Num (1#1) / Site 8 / Num (2#1));
    Num (83143#10000) * (Num (1#1) / Site 0 + Num (2#1) / Site 3 / Num (3#1) + Num (1#1) / Site 6 / Num (3#1) + Num (1#1) / Site 7 / Num (2#1) + Num (1#1) / Site 8 / Num (2#1))];
    [Num (83143#10000) * (Num (1#1) / Site 0);
    Num (83143#10000) * (Num (1#1) / Site 0 + Num (1#1) / Site 1);
    Num (83143#10000) * (Num (1#1) / Site 0);
    Num (83143#10000) * (Num (1#1) / Site 0)];
    [Num (83143#10000) * (Num (1#1) / Site 0 + Num (5#1) / Site 3 / Num (3#1) - Num (2#1) / Site 6 / Num (3#1) + Num (1#1) / Site 7 / Num (2#1) + Num (1#1) / Site 8 / Num (2#1));
    Num (83143#10000) * (Num (1#1) / Site 0);
    Num (83143#10000) * (Num (1#1) / Site 0 + Num (4#1) / Site 2 / Num (9#1) + Num (25#1) / Site 3 / Num (9#1) + Num (8#1) / Site 5 / Num (9#1) + Num (8#1) / Site 6 / Num (9#1) + Num (1#1) / Site 7 / Num (2#1) + Num (1#1) / Site 8 / Num (2#1));
    Num (83143#10000) * (Num (1#1) / Site 0 - Num (2#1) / Site 2 / Num (9#1) + Num (10#1) / Site 3 / Num (9#1) - Num (4#1) / Site 5 / Num (9#1) - Num (4#1) / Site 6 / Num (9#1) + Num (1#1) / Site 7 / Num (2#1) + Num (1#1) / Site 8 / Num (2#1))];
    [Num (83143#10000) * (Num (1#1) / Site 0 + Num (2#1) / Site 3 / Num (3#1) + Num (1#1) / Site 6 / Num (3#1) + Num (1#1) / Site 7 / Num (2#1) + Num (1#1) / Site 8 / Num (2#1));
    Num (83143#10000) * (Num (1#1) / Site 0);
    Num (83143#10000) * (Num (1#1) / Site 0 - Num (2#1) / Site 2 / Num (9#1) + Num (10#1) / Site 3 / Num (9#1) - Num (4#1) / Site 5 / Num (9#1) - Num (4#1) / Site 6 / Num (9#1) + Num (1#1) / Site 7 / Num (2#1) + Num (1#1) / Site 8 / Num (2#1));
    Num (83143#10000) * (Num (1#1) / Site 0 + Num (1#1) / Site 2 / Num (9#1) + Num (4#1) / Site 3 / Num (9#1) + Num (2#1) / Site 5 / Num (9#1) + Num (2#1) / Site 6 / Num (9#1) + Num (1#1) / Site 7 / Num (2#1) + Num (1#1) / Site 8 / Num (2#1))]].
(** sources/biotiteTaj.c 385: macro fillD3GDR2DP *)
Definition oTaj_d3gdr2dp :=
  [[Num (0#1);
    Num (0#1);
    Num (0#1);
    Num (0#1)];
    [Num (0#1);
    Num (0#1);
    Num (0#1);
    Num (0#1)];
    [Num (0#1);
    Num (0#1);
    Num (0#1);
    Num (0#1)];
    [Num (0#1);
    Num (0#1);
    Num (0#1);
    Num (0#1)]].
(** sources/biotiteTaj.c 395: macro fillD3GDRDS2 *)
Definition oTaj_d3gdrds2 :=
  [[[Num (-83143#10000) * Var 0 * (Num (4#1) / Site 3 / Site 3 / Num (9#1) - Num (1#1) / Site 6 / Site 6 / Num (9#1))]];
    [[Num (0#1)]];
    [[Num (-83143#10000) * Var 0 * (Num (-8#1) / Site 2 / Site 2 / Num (27#1) + Num (20#1) / Site 3 / Site 3 / Num (27#1) - Num (4#1) / Site 5 / Site 5 / Num (27#1) + Num (4#1) / Site 6 / Site 6 / Num (27#1))]];
    [[Num (-83143#10000) * Var 0 * (Num (4#1) / Site 2 / Site 2 / Num (27#1) + Num (8#1) / Site 3 / Site 3 / Num (27#1) + Num (2#1) / Site 5 / Site 5 / Num (27#1) - Num (2#1) / Site 6 / Site 6 / Num (27#1))]]].
(** sources/biotiteTaj.c 401: macro fillD3GDRDSDT *)
Definition oTaj_d3gdrdsdt :=
  [[Num (83143#10000) * (Num (2#1) / Site 3 / Num (3#1) + Num (1#1) / Site 6 / Num (3#1))];
    [Num (0#1)];
    [Num (83143#10000) * (Num (4#1) / Site 2 / Num (9#1) + Num (10#1) / Site 3 / Num (9#1) - Num (4#1) / Site 5 / Num (9#1) - Num (4#1) / Site 6 / Num (9#1))];
    [Num (83143#10000) * (Num (-2#1) / Site 2 / Num (9#1) + Num (4#1) / Site 3 / Num (9#1) + Num (2#1) / Site 5 / Num (9#1) + Num (2#1) / Site 6 / Num (9#1))]].
(** sources/biotiteTaj.c 407: macro fillD3GDRDSDP *)
Definition oTaj_d3gdrdsdp :=
  [[Num (0#1)];
    [Num (0#1)];
    [Num (0#1)];
    [Num (0#1)]].
(** sources/biotiteTaj.c 413: macro fillD3GDS3 *)
Definition oTaj_d3gds3 :=
  [[[Num (-83143#10000) * Var 0 * (Num (-8#1) / Site 2 / Site 2 / Num (27#1) + Num (8#1) / Site 3 / Site 3 / Num (27#1) + Num (2#1) / Site 5 / Site 5 / Num (27#1) - Num (2#1) / Site 6 / Site 6 / Num (27#1))]]].
(** sources/biotiteTaj.c 416: macro fillD3GDS2DT *)
Definition oTaj_d3gds2dt :=
  [[Num (83143#10000) * (Num (4#1) / Site 2 / Num (9#1) + Num (4#1) / Site 3 / Num (9#1) + Num (2#1) / Site 5 / Num (9#1) + Num (2#1) / Site 6 / Num (9#1))]].
(** sources/biotiteTaj.c 419: macro fillD3GDS2DP *)
Definition oTaj_d3gds2dp :=
  [[Num (0#1)]].
(** sources/biotiteTaj.c 422: macro fillD3GDSDT2 *)
Definition oTaj_d3gdsdt2 :=
  [Num (0#1)].
(** sources/biotiteTaj.c 425: macro fillD3GDSDTDP *)
Definition oTaj_d3gdsdtdp :=
  [Num (0#1)].
(** sources/biotiteTaj.c 428: macro fillD3GDSDP2 *)
Definition oTaj_d3gdsdp2 :=
  [Num (0#1)].
(** sources/biotiteTaj.c 431: macro fillD3GDRDT2 *)
Definition oTaj_d3gdrdt2 :=
  [Num (0#1);
    Num (0#1);
    Num (0#1);
    Num (0#1)].
(** sources/biotiteTaj.c 435: macro fillD3GDRDTDP *)
Definition oTaj_d3gdrdtdp :=
  [Num (0#1);
    Num (0#1);
    Num (0#1);
    Num (0#1)].
(** sources/biotiteTaj.c 439: macro fillD3GDRDP2 *)
Definition oTaj_d3gdrdp2 :=
  [Num (0#1);
    Num (0#1);
    Num (0#1);
    Num (0#1)].
(** sources/biotiteTaj.c 171: macro D2GDT2 *)
Definition oTaj_D2GDT2 :=
  Num (0#1).
(** sources/biotiteTaj.c 172: macro D2GDTDP *)
Definition oTaj_D2GDTDP :=
  Num (0#1).
(** sources/biotiteTaj.c 173: macro D2GDP2 *)
Definition oTaj_D2GDP2 :=
  Num (0#1).
(** sources/biotiteTaj.c 280: macro D3GDT3 *)
Definition oTaj_D3GDT3 :=
  Num (0#1).
(** sources/biotiteTaj.c 281: macro D3GDT2DP *)
Definition oTaj_D3GDT2DP :=
  Num (0#1).
(** sources/biotiteTaj.c 282: macro D3GDTDP2 *)
Definition oTaj_D3GDTDP2 :=
  Num (0#1).
(** sources/biotiteTaj.c 283: macro D3GDP3 *)
Definition oTaj_D3GDP3 :=
  Num (0#1).
(** sources/biotiteTaj.c, order: the site fractions and their clamps *)
Definition oTaj_sites := [mkSite (Num (1#1) - Var 2 - Var 3 - Var 4 - Var 5) Both0;
    mkSite (Var 3) Both0;
    mkSite ((Num (2#1) - Num (2#1) * Var 4 + Var 5 - Num (2#1) * Var 40) / Num (3#1)) Both0;
    mkSite ((Num (3#1) * Var 2 + Num (5#1) * Var 4 + Num (2#1) * Var 5 + Num (2#1) * Var 40 - Num (2#1)) / Num (3#1)) Both0;
    mkSite (Var 2 / Num (2#1)) Both0;
    mkSite ((Num (2#1) - Num (2#1) * Var 4 + Var 5 + Var 40) / Num (3#1)) Both0;
    mkSite ((Num (2#1) - Num (3#1) * Var 2 + Num (4#1) * Var 4 - Num (2#1) * Var 5 - Num (2#1) * Var 40) / Num (6#1)) Both0;
    mkSite (Num (1#1) - Var 2 / Num (2#1) - Var 4 / Num (2#1) - Var 5 / Num (2#1)) Both0;
    mkSite (Var 2 / Num (2#1) + Var 4 / Num (2#1) + Var 5 / Num (2#1)) Both0;
    mkSite (Num (1#1) - Var 2) Both0;
    mkSite (Var 2) Both0].
Definition oTaj := mkOrd "biotiteTaj" 5 4 1 Inverse false oTaj_sites None oTaj_g oTaj_s oTaj_v oTaj_r1 oTaj_s1
  oTaj_d2gdr2 oTaj_d2gdrds oTaj_d2gdrdt oTaj_d2gdrdp oTaj_d2gds2 oTaj_d2gdsdt oTaj_d2gdsdp oTaj_d3gdr3 oTaj_d3gdr2ds oTaj_d3gdr2dt oTaj_d3gdr2dp oTaj_d3gdrds2 oTaj_d3gdrdsdt oTaj_d3gdrdsdp oTaj_d3gds3 oTaj_d3gds2dt oTaj_d3gds2dp oTaj_d3gdsdt2 oTaj_d3gdsdtdp oTaj_d3gdsdp2 oTaj_d3gdrdt2 oTaj_d3gdrdtdp oTaj_d3gdrdp2 oTaj_D2GDT2 oTaj_D2GDTDP oTaj_D2GDP2 oTaj_D3GDT3 oTaj_D3GDT2DP oTaj_D3GDTDP2 oTaj_D3GDP3.
(** sources/clinopyroxene.c 2098: macro G *)
Definition oCpx_g :=
  (- Var 0) * (Num (-83143#10000) * (Site 7 * Log 7 + Site 5 * Log 5 + Site 4 * Log 4 + Site 6 * Log 6 + Site 0 * Log 0 + (Site 7 + Site 5 - Site 0) * Log 12 - (Num (1#1) - Site 0) * Log 13 - (Site 7 + Site 5) * Log 14 - Num (2#1) * (Num (1#1) - Site 3) * Log 15 + Num (2#1) * Site 10 * Log 10 + Num (2#1) * Site 11 * Log 11 + Site 1 * Log 1 + Site 2 * Log 2 + Site 9 * Log 9 + Site 8 * Log 8 + (Num (1#1) - Site 7 - Site 5 - Site 2) * Log 16 - (Num (1#1) - Site 7 - Site 5) * Log 17 - (Num (1#1) - Site 2) * Log 18)) + Num (175728#25) * Var 2 + Num (16318#1) * Var 3 + Num (18828#1) * Var 4 + Num (589928#25) * Var 5 + Num (-330517#25) * Var 6 + (Num (14512629199#1250000) - Var 0 * Num (-49693891#12500000) + (Var 1 - Num (1#1)) * Num (-106789#10000000)) * Var 7 + Num (-66928#25) * Var 40 + (Num (-12264970801#1250000) + (Var 1 - Num (1#1)) * Num (-64949#10000000)) * Var 41 + Num (-175728#25) * Var 2 * Var 2 + Num (-223714#25) * Var 2 * Var 3 + Num (-456188#25) * Var 2 * Var 4 + Num (-4029543#200) * Var 2 * Var 5 + Num (-433951#80) * Var 2 * Var 6 + (Num (411241699#625000) - Var 0 * Num (-14522141#2500000) + (Var 1 - Num (1#1)) * Num (-431049#5000000)) * Var 2 * Var 7 + Num (-763929#200) * Var 2 * Var 40 + (Num (-77927#25) + (Var 1 - Num (1#1)) * Num (10983#125000)) * Var 2 * Var 41 + Num (-16318#1) * Var 3 * Var 3 + Num (-18357#1) * Var 3 * Var 4 + Num (-136636#25) * Var 3 * Var 5 + Num (40802#5) * Var 3 * Var 6 + (Num (56240879199#2500000) - Var 0 * Num (8880909#25000000) + (Var 1 - Num (1#1)) * Num (-1435929#20000000)) * Var 3 * Var 7 + Num (-493611#25) * Var 3 * Var 40 + (Num (18843704199#2500000) - Var 0 * Num (-13502291#25000000) + (Var 1 - Num (1#1)) * Num (175631#20000000)) * Var 3 * Var 41 + Num (-18828#1) * Var 4 * Var 4 + Num (-797597#50) * Var 4 * Var 5 + Num (465043#20) * Var 4 * Var 6 + (Num (67869804199#2500000) - Var 0 * Num (8880909#25000000) + (Var 1 - Num (1#1)) * Num (-1435929#20000000)) * Var 4 * Var 7 + Num (167353#50) * Var 4 * Var 40 + (Num (19922304199#2500000) - Var 0 * Num (-13502291#25000000) + (Var 1 - Num (1#1)) * Num (175631#20000000)) * Var 4 * Var 41 + Num (-9937#1) * Var 5 * Var 5 + Num (-64905#4) * Var 5 * Var 6 + (Num (22085641699#1250000) - Var 0 * Num (-2310691#12500000) + (Var 1 - Num (1#1)) * Num (-713829#10000000)) * Var 5 * Var 7 + Num (-4131#2) * Var 5 * Var 40 + (Num (-1067933301#1250000) - Var 0 * Num (-13502291#12500000) + (Var 1 - Num (1#1)) * Num (91951#10000000)) * Var 5 * Var 41 + Num (69887#8) * Var 6 * Var 6 + (Num (-1628645801#2500000) - Var 0 * Num (-2310691#25000000) + (Var 1 - Num (1#1)) * Num (-713829#20000000)) * Var 6 * Var 7 + Num (-7322#1) * Var 6 * Var 40 + (Num (18594841699#2500000) - Var 0 * Num (-13502291#25000000) + (Var 1 - Num (1#1)) * Num (91951#20000000)) * Var 6 * Var 41 + (Num (-21955572949#1250000) - Var 0 * Num (28998781#5000000) + (Var 1 - Num (1#1)) * Num (2312144133#50000000000)) * Var 7 * Var 7 + Num (212047#50) * Var 7 * Var 40 + (Num (6825770801#1250000) - Var 0 * Num (14522141#5000000) + (Var 1 - Num (1#1)) * Num (952344133#50000000000)) * Var 7 * Var 41 + Num (-17835#2) * Var 40 * Var 40 + Num (780493#100) * Var 40 * Var 41 + (Num (1492119#200) + (Var 1 - Num (1#1)) * Num (-22489#250000)) * Var 41 * Var 41 + (Num (6799#20) + (Var 1 - Num (1#1)) * Num (-5753#500000)) * Var 2 * Var 2 * Var 7 + (Num (-6799#20) + (Var 1 - Num (1#1)) * Num (5753#500000)) * Var 2 * Var 2 * Var 41 + (Num (-6799#10) + (Var 1 - Num (1#1)) * Num (5753#250000)) * Var 2 * Var 3 * Var 7 + (Num (51777#10) + (Var 1 - Num (1#1)) * Num (-10983#250000)) * Var 2 * Var 3 * Var 41 + (Num (-6799#10) + (Var 1 - Num (1#1)) * Num (5753#250000)) * Var 2 * Var 4 * Var 7 + (Num (51777#10) + (Var 1 - Num (1#1)) * Num (-10983#250000)) * Var 2 * Var 4 * Var 41 + (Num (-6799#10) + (Var 1 - Num (1#1)) * Num (5753#250000)) * Var 2 * Var 5 * Var 7 + (Num (51777#10) + (Var 1 - Num (1#1)) * Num (-10983#250000)) * Var 2 * Var 5 * Var 41 + (Num (-6799#20) + (Var 1 - Num (1#1)) * Num (5753#500000)) * Var 2 * Var 6 * Var 7 + (Num (51777#20) + (Var 1 - Num (1#1)) * Num (-10983#500000)) * Var 2 * Var 6 * Var 41 + (Num (-202401#200) - Var 0 * Num (45606123#12500000) + (Var 1 - Num (1#1)) * Num (2105074133#25000000000)) * Var 2 * Var 7 * Var 7 + (Num (213907#20) + (Var 1 - Num (1#1)) * Num (-9937#100000)) * Var 2 * Var 7 * Var 41 + (Num (6799#40) + (Var 1 - Num (1#1)) * Num (-5753#1000000)) * Var 2 * Var 41 * Var 41 + (Num (-7322#5) + (Var 1 - Num (1#1)) * Num (523#31250)) * Var 3 * Var 3 * Var 7 + (Num (7322#5) + (Var 1 - Num (1#1)) * Num (-523#31250)) * Var 3 * Var 3 * Var 41 + (Num (-139641#40) + (Var 1 - Num (1#1)) * Num (36087#1000000)) * Var 3 * Var 4 * Var 7 + (Num (94663#40) + (Var 1 - Num (1#1)) * Num (-30857#1000000)) * Var 3 * Var 4 * Var 41 + (Num (-94663#40) + (Var 1 - Num (1#1)) * Num (30857#1000000)) * Var 3 * Var 5 * Var 7 + (Num (139641#40) + (Var 1 - Num (1#1)) * Num (-36087#1000000)) * Var 3 * Var 5 * Var 41 + (Num (-7322#5) + (Var 1 - Num (1#1)) * Num (523#31250)) * Var 3 * Var 6 * Var 7 + (Num (7322#5) + (Var 1 - Num (1#1)) * Num (-523#31250)) * Var 3 * Var 6 * Var 41 + (Num (-769333#400) - Var 0 * Num (45606123#50000000) + (Var 1 - Num (1#1)) * Num (2013549133#100000000000)) * Var 3 * Var 7 * Var 7 + (Num (30857#25) - Var 0 * Num (45606123#50000000) + (Var 1 - Num (1#1)) * Num (-2928800867#100000000000)) * Var 3 * Var 7 * Var 41 + (Num (-450303#80) + (Var 1 - Num (1#1)) * Num (20397#400000)) * Var 3 * Var 41 * Var 41 + (Num (-7322#5) + (Var 1 - Num (1#1)) * Num (523#31250)) * Var 4 * Var 4 * Var 7 + (Num (7322#5) + (Var 1 - Num (1#1)) * Num (-523#31250)) * Var 4 * Var 4 * Var 41 + (Num (-94663#40) + (Var 1 - Num (1#1)) * Num (30857#1000000)) * Var 4 * Var 5 * Var 7 + (Num (139641#40) + (Var 1 - Num (1#1)) * Num (-36087#1000000)) * Var 4 * Var 5 * Var 41 + (Num (-36087#40) + (Var 1 - Num (1#1)) * Num (14121#1000000)) * Var 4 * Var 6 * Var 7 + (Num (16213#8) + (Var 1 - Num (1#1)) * Num (-19351#1000000)) * Var 4 * Var 6 * Var 41 + (Num (-769333#400) - Var 0 * Num (45606123#50000000) + (Var 1 - Num (1#1)) * Num (2013549133#100000000000)) * Var 4 * Var 7 * Var 7 + (Num (30857#25) - Var 0 * Num (45606123#50000000) + (Var 1 - Num (1#1)) * Num (-2928800867#100000000000)) * Var 4 * Var 7 * Var 41 + (Num (-450303#80) + (Var 1 - Num (1#1)) * Num (20397#400000)) * Var 4 * Var 41 * Var 41 + (Num (-6799#20) + (Var 1 - Num (1#1)) * Num (5753#500000)) * Var 5 * Var 5 * Var 7 + (Num (51777#20) + (Var 1 - Num (1#1)) * Num (-10983#500000)) * Var 5 * Var 5 * Var 41 + (Num (-6799#20) + (Var 1 - Num (1#1)) * Num (5753#500000)) * Var 5 * Var 6 * Var 7 + (Num (51777#20) + (Var 1 - Num (1#1)) * Num (-10983#500000)) * Var 5 * Var 6 * Var 41 + (Num (51777#200) - Var 0 * Num (45606123#25000000) + (Var 1 - Num (1#1)) * Num (810649133#50000000000)) * Var 5 * Var 7 * Var 7 + (Num (369761#100) - Var 0 * Num (45606123#25000000) + (Var 1 - Num (1#1)) * Num (-1725900867#50000000000)) * Var 5 * Var 7 * Var 41 + (Num (-213907#40) + (Var 1 - Num (1#1)) * Num (9937#200000)) * Var 5 * Var 41 * Var 41 + (Num (8891#160) + (Var 1 - Num (1#1)) * Num (8891#4000000)) * Var 6 * Var 6 * Var 7 + (Num (126043#160) + (Var 1 - Num (1#1)) * Num (-24581#4000000)) * Var 6 * Var 6 * Var 41 + (Num (51777#400) - Var 0 * Num (45606123#50000000) + (Var 1 - Num (1#1)) * Num (810649133#100000000000)) * Var 6 * Var 7 * Var 7 + (Num (369761#200) - Var 0 * Num (45606123#50000000) + (Var 1 - Num (1#1)) * Num (-1725900867#100000000000)) * Var 6 * Var 7 * Var 41 + (Num (-213907#80) + (Var 1 - Num (1#1)) * Num (9937#400000)) * Var 6 * Var 41 * Var 41 + (Num (59099#100) - Var 0 * Num (-45606123#25000000) + (Var 1 - Num (1#1)) * Num (-2248899133#50000000000)) * Var 7 * Var 7 * Var 7 + (Num (-106169#25) - Var 0 * Num (-45606123#25000000) + (Var 1 - Num (1#1)) * Num (-627599133#50000000000)) * Var 7 * Var 7 * Var 41 + (Num (-213907#20) + (Var 1 - Num (1#1)) * Num (9937#100000)) * Var 7 * Var 41 * Var 41.
(** sources/clinopyroxene.c 1999: macro S *)
Definition oCpx_s :=
  Num (-83143#10000) * (Site 7 * Log 7 + Site 5 * Log 5 + Site 4 * Log 4 + Site 6 * Log 6 + Site 0 * Log 0 + (Site 7 + Site 5 - Site 0) * Log 12 - (Num (1#1) - Site 0) * Log 13 - (Site 7 + Site 5) * Log 14 - Num (2#1) * (Num (1#1) - Site 3) * Log 15 + Num (2#1) * Site 10 * Log 10 + Num (2#1) * Site 11 * Log 11 + Site 1 * Log 1 + Site 2 * Log 2 + Site 9 * Log 9 + Site 8 * Log 8 + (Num (1#1) - Site 7 - Site 5 - Site 2) * Log 16 - (Num (1#1) - Site 7 - Site 5) * Log 17 - (Num (1#1) - Site 2) * Log 18) + Num (-49693891#12500000) * Var 7 + Num (-14522141#2500000) * Var 2 * Var 7 + Num (8880909#25000000) * Var 3 * Var 7 + Num (-13502291#25000000) * Var 3 * Var 41 + Num (8880909#25000000) * Var 4 * Var 7 + Num (-13502291#25000000) * Var 4 * Var 41 + Num (-2310691#12500000) * Var 5 * Var 7 + Num (-13502291#12500000) * Var 5 * Var 41 + Num (-2310691#25000000) * Var 6 * Var 7 + Num (-13502291#25000000) * Var 6 * Var 41 + Num (28998781#5000000) * Var 7 * Var 7 + Num (14522141#5000000) * Var 7 * Var 41 + Num (45606123#12500000) * Var 2 * Var 7 * Var 7 + Num (45606123#50000000) * Var 3 * Var 7 * Var 7 + Num (45606123#50000000) * Var 3 * Var 7 * Var 41 + Num (45606123#50000000) * Var 4 * Var 7 * Var 7 + Num (45606123#50000000) * Var 4 * Var 7 * Var 41 + Num (45606123#25000000) * Var 5 * Var 7 * Var 7 + Num (45606123#25000000) * Var 5 * Var 7 * Var 41 + Num (45606123#50000000) * Var 6 * Var 7 * Var 7 + Num (45606123#50000000) * Var 6 * Var 7 * Var 41 + Num (-45606123#25000000) * Var 7 * Var 7 * Var 7 + Num (-45606123#25000000) * Var 7 * Var 7 * Var 41.
(** sources/clinopyroxene.c 2410: macro DGDP *)
Definition oCpx_v :=
  Num (-106789#10000000) * Var 7 + Num (-64949#10000000) * Var 41 + Num (-431049#5000000) * Var 2 * Var 7 + Num (10983#125000) * Var 2 * Var 41 + Num (-1435929#20000000) * Var 3 * Var 7 + Num (175631#20000000) * Var 3 * Var 41 + Num (-1435929#20000000) * Var 4 * Var 7 + Num (175631#20000000) * Var 4 * Var 41 + Num (-713829#10000000) * Var 5 * Var 7 + Num (91951#10000000) * Var 5 * Var 41 + Num (-713829#20000000) * Var 6 * Var 7 + Num (91951#20000000) * Var 6 * Var 41 + Num (2312144133#50000000000) * Var 7 * Var 7 + Num (952344133#50000000000) * Var 7 * Var 41 + Num (-22489#250000) * Var 41 * Var 41 + Num (-5753#500000) * Var 2 * Var 2 * Var 7 + Num (5753#500000) * Var 2 * Var 2 * Var 41 + Num (5753#250000) * Var 2 * Var 3 * Var 7 + Num (-10983#250000) * Var 2 * Var 3 * Var 41 + Num (5753#250000) * Var 2 * Var 4 * Var 7 + Num (-10983#250000) * Var 2 * Var 4 * Var 41 + Num (5753#250000) * Var 2 * Var 5 * Var 7 + Num (-10983#250000) * Var 2 * Var 5 * Var 41 + Num (5753#500000) * Var 2 * Var 6 * Var 7 + Num (-10983#500000) * Var 2 * Var 6 * Var 41 + Num (2105074133#25000000000) * Var 2 * Var 7 * Var 7 + Num (-9937#100000) * Var 2 * Var 7 * Var 41 + Num (-5753#1000000) * Var 2 * Var 41 * Var 41 + Num (523#31250) * Var 3 * Var 3 * Var 7 + Num (-523#31250) * Var 3 * Var 3 * Var 41 + Num (36087#1000000) * Var 3 * Var 4 * Var 7 + Num (-30857#1000000) * Var 3 * Var 4 * Var 41 + Num (30857#1000000) * Var 3 * Var 5 * Var 7 + Num (-36087#1000000) * Var 3 * Var 5 * Var 41 + Num (523#31250) * Var 3 * Var 6 * Var 7 + Num (-523#31250) * Var 3 * Var 6 * Var 41 + Num (2013549133#100000000000) * Var 3 * Var 7 * Var 7 + Num (-2928800867#100000000000) * Var 3 * Var 7 * Var 41 + Num (20397#400000) * Var 3 * Var 41 * Var 41 + Num (523#31250) * Var 4 * Var 4 * Var 7 + Num (-523#31250) * Var 4 * Var 4 * Var 41 + Num (30857#1000000) * Var 4 * Var 5 * Var 7 + Num (-36087#1000000) * Var 4 * Var 5 * Var 41 + Num (14121#1000000) * Var 4 * Var 6 * Var 7 + Num (-19351#1000000) * Var 4 * Var 6 * Var 41 + Num (2013549133#100000000000) * Var 4 * Var 7 * Var 7 + Num (-2928800867#100000000000) * Var 4 * Var 7 * Var 41 + Num (20397#400000) * Var 4 * Var 41 * Var 41 + Num (5753#500000) * Var 5 * Var 5 * Var 7 + Num (-10983#500000) * Var 5 * Var 5 * Var 41 + Num (5753#500000) * Var 5 * Var 6 * Var 7 + Num (-10983#500000) * Var 5 * Var 6 * Var 41 + Num (810649133#50000000000) * Var 5 * Var 7 * Var 7 + Num (-1725900867#50000000000) * Var 5 * Var 7 * Var 41 + Num (9937#200000) * Var 5 * Var 41 * Var 41 + Num (8891#4000000) * Var 6 * Var 6 * Var 7 + Num (-24581#4000000) * Var 6 * Var 6 * Var 41 + Num (810649133#100000000000) * Var 6 * Var 7 * Var 7 + Num (-1725900867#100000000000) * Var 6 * Var 7 * Var 41 + Num (9937#400000) * Var 6 * Var 41 * Var 41 + Num (-2248899133#50000000000) * Var 7 * Var 7 * Var 7 + Num (-627599133#50000000000) * Var 7 * Var 7 * Var 41 + Num (9937#100000) * Var 7 * Var 41 * Var 41.
(** sources/clinopyroxene.c 2194-2323: macros DGDRi *)
Definition oCpx_r1 :=
  [Num (83143#10000) * Var 0 * (Log 5 - Log 7) + Num (175728#25) + Num (-175728#25) * Var 2 * Num (2#1) + Num (-223714#25) * Var 3 + Num (-456188#25) * Var 4 + Num (-4029543#200) * Var 5 + Num (-433951#80) * Var 6 + (Num (411241699#625000) - Var 0 * Num (-14522141#2500000) + (Var 1 - Num (1#1)) * Num (-431049#5000000)) * Var 7 + Num (-763929#200) * Var 40 + (Num (-77927#25) + (Var 1 - Num (1#1)) * Num (10983#125000)) * Var 41 + (Num (6799#20) + (Var 1 - Num (1#1)) * Num (-5753#500000)) * Var 2 * Var 7 * Num (2#1) + (Num (-6799#20) + (Var 1 - Num (1#1)) * Num (5753#500000)) * Var 2 * Var 41 * Num (2#1) + (Num (-6799#10) + (Var 1 - Num (1#1)) * Num (5753#250000)) * Var 3 * Var 7 + (Num (51777#10) + (Var 1 - Num (1#1)) * Num (-10983#250000)) * Var 3 * Var 41 + (Num (-6799#10) + (Var 1 - Num (1#1)) * Num (5753#250000)) * Var 4 * Var 7 + (Num (51777#10) + (Var 1 - Num (1#1)) * Num (-10983#250000)) * Var 4 * Var 41 + (Num (-6799#10) + (Var 1 - Num (1#1)) * Num (5753#250000)) * Var 5 * Var 7 + (Num (51777#10) + (Var 1 - Num (1#1)) * Num (-10983#250000)) * Var 5 * Var 41 + (Num (-6799#20) + (Var 1 - Num (1#1)) * Num (5753#500000)) * Var 6 * Var 7 + (Num (51777#20) + (Var 1 - Num (1#1)) * Num (-10983#500000)) * Var 6 * Var 41 + (Num (-202401#200) - Var 0 * Num (45606123#12500000) + (Var 1 - Num (1#1)) * Num (2105074133#25000000000)) * Var 7 * Var 7 + (Num (213907#20) + (Var 1 - Num (1#1)) * Num (-9937#100000)) * Var 7 * Var 41 + (Num (6799#40) + (Var 1 - Num (1#1)) * Num (-5753#1000000)) * Var 41 * Var 41;
    Num (83143#10000) * Var 0 * (Num (1#2) * Log 0 - Num (1#2) * Log 7 + Num (1#2) * Log 13 - Log 12 + Num (1#2) * Log 14 + Num (1#2) * Log 16 - Log 15 - Num (1#2) * Log 17 + Log 10) + Num (16318#1) + Num (-223714#25) * Var 2 + Num (-16318#1) * Var 3 * Num (2#1) + Num (-18357#1) * Var 4 + Num (-136636#25) * Var 5 + Num (40802#5) * Var 6 + (Num (56240879199#2500000) - Var 0 * Num (8880909#25000000) + (Var 1 - Num (1#1)) * Num (-1435929#20000000)) * Var 7 + Num (-493611#25) * Var 40 + (Num (18843704199#2500000) - Var 0 * Num (-13502291#25000000) + (Var 1 - Num (1#1)) * Num (175631#20000000)) * Var 41 + (Num (-6799#10) + (Var 1 - Num (1#1)) * Num (5753#250000)) * Var 2 * Var 7 + (Num (51777#10) + (Var 1 - Num (1#1)) * Num (-10983#250000)) * Var 2 * Var 41 + (Num (-7322#5) + (Var 1 - Num (1#1)) * Num (523#31250)) * Var 3 * Var 7 * Num (2#1) + (Num (7322#5) + (Var 1 - Num (1#1)) * Num (-523#31250)) * Var 3 * Var 41 * Num (2#1) + (Num (-139641#40) + (Var 1 - Num (1#1)) * Num (36087#1000000)) * Var 4 * Var 7 + (Num (94663#40) + (Var 1 - Num (1#1)) * Num (-30857#1000000)) * Var 4 * Var 41 + (Num (-94663#40) + (Var 1 - Num (1#1)) * Num (30857#1000000)) * Var 5 * Var 7 + (Num (139641#40) + (Var 1 - Num (1#1)) * Num (-36087#1000000)) * Var 5 * Var 41 + (Num (-7322#5) + (Var 1 - Num (1#1)) * Num (523#31250)) * Var 6 * Var 7 + (Num (7322#5) + (Var 1 - Num (1#1)) * Num (-523#31250)) * Var 6 * Var 41 + (Num (-769333#400) - Var 0 * Num (45606123#50000000) + (Var 1 - Num (1#1)) * Num (2013549133#100000000000)) * Var 7 * Var 7 + (Num (30857#25) - Var 0 * Num (45606123#50000000) + (Var 1 - Num (1#1)) * Num (-2928800867#100000000000)) * Var 7 * Var 41 + (Num (-450303#80) + (Var 1 - Num (1#1)) * Num (20397#400000)) * Var 41 * Var 41;
    Num (83143#10000) * Var 0 * (Num (1#2) * Log 0 - Num (1#2) * Log 7 + Num (1#2) * Log 13 - Log 12 + Num (1#2) * Log 14 + Num (1#2) * Log 16 - Log 15 - Num (1#2) * Log 17 + Log 11) + Num (18828#1) + Num (-456188#25) * Var 2 + Num (-18357#1) * Var 3 + Num (-18828#1) * Var 4 * Num (2#1) + Num (-797597#50) * Var 5 + Num (465043#20) * Var 6 + (Num (67869804199#2500000) - Var 0 * Num (8880909#25000000) + (Var 1 - Num (1#1)) * Num (-1435929#20000000)) * Var 7 + Num (167353#50) * Var 40 + (Num (19922304199#2500000) - Var 0 * Num (-13502291#25000000) + (Var 1 - Num (1#1)) * Num (175631#20000000)) * Var 41 + (Num (-6799#10) + (Var 1 - Num (1#1)) * Num (5753#250000)) * Var 2 * Var 7 + (Num (51777#10) + (Var 1 - Num (1#1)) * Num (-10983#250000)) * Var 2 * Var 41 + (Num (-139641#40) + (Var 1 - Num (1#1)) * Num (36087#1000000)) * Var 3 * Var 7 + (Num (94663#40) + (Var 1 - Num (1#1)) * Num (-30857#1000000)) * Var 3 * Var 41 + (Num (-7322#5) + (Var 1 - Num (1#1)) * Num (523#31250)) * Var 4 * Var 7 * Num (2#1) + (Num (7322#5) + (Var 1 - Num (1#1)) * Num (-523#31250)) * Var 4 * Var 41 * Num (2#1) + (Num (-94663#40) + (Var 1 - Num (1#1)) * Num (30857#1000000)) * Var 5 * Var 7 + (Num (139641#40) + (Var 1 - Num (1#1)) * Num (-36087#1000000)) * Var 5 * Var 41 + (Num (-36087#40) + (Var 1 - Num (1#1)) * Num (14121#1000000)) * Var 6 * Var 7 + (Num (16213#8) + (Var 1 - Num (1#1)) * Num (-19351#1000000)) * Var 6 * Var 41 + (Num (-769333#400) - Var 0 * Num (45606123#50000000) + (Var 1 - Num (1#1)) * Num (2013549133#100000000000)) * Var 7 * Var 7 + (Num (30857#25) - Var 0 * Num (45606123#50000000) + (Var 1 - Num (1#1)) * Num (-2928800867#100000000000)) * Var 7 * Var 41 + (Num (-450303#80) + (Var 1 - Num (1#1)) * Num (20397#400000)) * Var 41 * Var 41;
    Num (83143#10000) * Var 0 * (Num (1#2) * Log 4 + Num (1#2) * Log 6 - Log 7 - Log 12 + Log 14 - Log 15 + Num (1#2) * Log 10 + Num (1#2) * Log 11 + Log 16 - Log 17) + Num (589928#25) + Num (-4029543#200) * Var 2 + Num (-136636#25) * Var 3 + Num (-797597#50) * Var 4 + Num (-9937#1) * Var 5 * Num (2#1) + Num (-64905#4) * Var 6 + (Num (22085641699#1250000) - Var 0 * Num (-2310691#12500000) + (Var 1 - Num (1#1)) * Num (-713829#10000000)) * Var 7 + Num (-4131#2) * Var 40 + (Num (-1067933301#1250000) - Var 0 * Num (-13502291#12500000) + (Var 1 - Num (1#1)) * Num (91951#10000000)) * Var 41 + (Num (-6799#10) + (Var 1 - Num (1#1)) * Num (5753#250000)) * Var 2 * Var 7 + (Num (51777#10) + (Var 1 - Num (1#1)) * Num (-10983#250000)) * Var 2 * Var 41 + (Num (-94663#40) + (Var 1 - Num (1#1)) * Num (30857#1000000)) * Var 3 * Var 7 + (Num (139641#40) + (Var 1 - Num (1#1)) * Num (-36087#1000000)) * Var 3 * Var 41 + (Num (-94663#40) + (Var 1 - Num (1#1)) * Num (30857#1000000)) * Var 4 * Var 7 + (Num (139641#40) + (Var 1 - Num (1#1)) * Num (-36087#1000000)) * Var 4 * Var 41 + (Num (-6799#20) + (Var 1 - Num (1#1)) * Num (5753#500000)) * Var 5 * Var 7 * Num (2#1) + (Num (51777#20) + (Var 1 - Num (1#1)) * Num (-10983#500000)) * Var 5 * Var 41 * Num (2#1) + (Num (-6799#20) + (Var 1 - Num (1#1)) * Num (5753#500000)) * Var 6 * Var 7 + (Num (51777#20) + (Var 1 - Num (1#1)) * Num (-10983#500000)) * Var 6 * Var 41 + (Num (51777#200) - Var 0 * Num (45606123#25000000) + (Var 1 - Num (1#1)) * Num (810649133#50000000000)) * Var 7 * Var 7 + (Num (369761#100) - Var 0 * Num (45606123#25000000) + (Var 1 - Num (1#1)) * Num (-1725900867#50000000000)) * Var 7 * Var 41 + (Num (-213907#40) + (Var 1 - Num (1#1)) * Num (9937#200000)) * Var 41 * Var 41;
    Num (83143#10000) * Var 0 * (Num (1#4) * Log 4 + Num (1#4) * Log 6 - Num (1#2) * Log 7 - Num (1#2) * Log 12 + Num (1#2) * Log 14 + Num (1#2) * Log 15 - Num (1#4) * Log 10 - Num (1#4) * Log 11 - Log 1 + Log 2 - Num (1#2) * Log 16 - Num (1#2) * Log 17 + Log 18) + Num (-330517#25) + Num (-433951#80) * Var 2 + Num (40802#5) * Var 3 + Num (465043#20) * Var 4 + Num (-64905#4) * Var 5 + Num (69887#8) * Var 6 * Num (2#1) + (Num (-1628645801#2500000) - Var 0 * Num (-2310691#25000000) + (Var 1 - Num (1#1)) * Num (-713829#20000000)) * Var 7 + Num (-7322#1) * Var 40 + (Num (18594841699#2500000) - Var 0 * Num (-13502291#25000000) + (Var 1 - Num (1#1)) * Num (91951#20000000)) * Var 41 + (Num (-6799#20) + (Var 1 - Num (1#1)) * Num (5753#500000)) * Var 2 * Var 7 + (Num (51777#20) + (Var 1 - Num (1#1)) * Num (-10983#500000)) * Var 2 * Var 41 + (Num (-7322#5) + (Var 1 - Num (1#1)) * Num (523#31250)) * Var 3 * Var 7 + (Num (7322#5) + (Var 1 - Num (1#1)) * Num (-523#31250)) * Var 3 * Var 41 + (Num (-36087#40) + (Var 1 - Num (1#1)) * Num (14121#1000000)) * Var 4 * Var 7 + (Num (16213#8) + (Var 1 - Num (1#1)) * Num (-19351#1000000)) * Var 4 * Var 41 + (Num (-6799#20) + (Var 1 - Num (1#1)) * Num (5753#500000)) * Var 5 * Var 7 + (Num (51777#20) + (Var 1 - Num (1#1)) * Num (-10983#500000)) * Var 5 * Var 41 + (Num (8891#160) + (Var 1 - Num (1#1)) * Num (8891#4000000)) * Var 6 * Var 7 * Num (2#1) + (Num (126043#160) + (Var 1 - Num (1#1)) * Num (-24581#4000000)) * Var 6 * Var 41 * Num (2#1) + (Num (51777#400) - Var 0 * Num (45606123#50000000) + (Var 1 - Num (1#1)) * Num (810649133#100000000000)) * Var 7 * Var 7 + (Num (369761#200) - Var 0 * Num (45606123#50000000) + (Var 1 - Num (1#1)) * Num (-1725900867#100000000000)) * Var 7 * Var 41 + (Num (-213907#80) + (Var 1 - Num (1#1)) * Num (9937#400000)) * Var 41 * Var 41;
    Num (83143#20000) * Var 0 * (Log 7 - Num (2#1) * Log 1 + Log 9 + (Log 8 - Log 5)) + (Num (14512629199#1250000) - Var 0 * Num (-49693891#12500000) + (Var 1 - Num (1#1)) * Num (-106789#10000000)) + (Num (411241699#625000) - Var 0 * Num (-14522141#2500000) + (Var 1 - Num (1#1)) * Num (-431049#5000000)) * Var 2 + (Num (56240879199#2500000) - Var 0 * Num (8880909#25000000) + (Var 1 - Num (1#1)) * Num (-1435929#20000000)) * Var 3 + (Num (67869804199#2500000) - Var 0 * Num (8880909#25000000) + (Var 1 - Num (1#1)) * Num (-1435929#20000000)) * Var 4 + (Num (22085641699#1250000) - Var 0 * Num (-2310691#12500000) + (Var 1 - Num (1#1)) * Num (-713829#10000000)) * Var 5 + (Num (-1628645801#2500000) - Var 0 * Num (-2310691#25000000) + (Var 1 - Num (1#1)) * Num (-713829#20000000)) * Var 6 + (Num (-21955572949#1250000) - Var 0 * Num (28998781#5000000) + (Var 1 - Num (1#1)) * Num (2312144133#50000000000)) * Var 7 * Num (2#1) + Num (212047#50) * Var 40 + (Num (6825770801#1250000) - Var 0 * Num (14522141#5000000) + (Var 1 - Num (1#1)) * Num (952344133#50000000000)) * Var 41 + (Num (6799#20) + (Var 1 - Num (1#1)) * Num (-5753#500000)) * Var 2 * Var 2 + (Num (-6799#10) + (Var 1 - Num (1#1)) * Num (5753#250000)) * Var 2 * Var 3 + (Num (-6799#10) + (Var 1 - Num (1#1)) * Num (5753#250000)) * Var 2 * Var 4 + (Num (-6799#10) + (Var 1 - Num (1#1)) * Num (5753#250000)) * Var 2 * Var 5 + (Num (-6799#20) + (Var 1 - Num (1#1)) * Num (5753#500000)) * Var 2 * Var 6 + (Num (-202401#200) - Var 0 * Num (45606123#12500000) + (Var 1 - Num (1#1)) * Num (2105074133#25000000000)) * Var 2 * Var 7 * Num (2#1) + (Num (213907#20) + (Var 1 - Num (1#1)) * Num (-9937#100000)) * Var 2 * Var 41 + (Num (-7322#5) + (Var 1 - Num (1#1)) * Num (523#31250)) * Var 3 * Var 3 + (Num (-139641#40) + (Var 1 - Num (1#1)) * Num (36087#1000000)) * Var 3 * Var 4 + (Num (-94663#40) + (Var 1 - Num (1#1)) * Num (30857#1000000)) * Var 3 * Var 5 + (Num (-7322#5) + (Var 1 - Num (1#1)) * Num (523#31250)) * Var 3 * Var 6 + (Num (-769333#400) - Var 0 * Num (45606123#50000000) + (Var 1 - Num (1#1)) * Num (2013549133#100000000000)) * Var 3 * Var 7 * Num (2#1) + (Num (30857#25) - Var 0 * Num (45606123#50000000) + (Var 1 - Num (1#1)) * Num (-2928800867#100000000000)) * Var 3 * Var 41 + (Num (-7322#5) + (Var 1 - Num (1#1)) * Num (523#31250)) * Var 4 * Var 4 + (Num (-94663#40) + (Var 1 - Num (1#1)) * Num (30857#1000000)) * Var 4 * Var 5 + (Num (-36087#40) + (Var 1 - Num (1#1)) * Num (14121#1000000)) * Var 4 * Var 6 + (Num (-769333#400) - Var 0 * Num (45606123#50000000) + (Var 1 - Num (1#1)) * Num (2013549133#100000000000)) * Var 4 * Var 7 * Num (2#1) + (Num (30857#25) - Var 0 * Num (45606123#50000000) + (Var 1 - Num (1#1)) * Num (-2928800867#100000000000)) * Var 4 * Var 41 + (Num (-6799#20) + (Var 1 - Num (1#1)) * Num (5753#500000)) * Var 5 * Var 5 + (Num (-6799#20) + (Var 1 - Num (1#1)) * Num (5753#500000)) * Var 5 * Var 6 + (Num (51777#200) - Var 0 * Num (45606123#25000000) + (Var 1 - Num (1#1)) * Num (810649133#50000000000)) * Var 5 * Var 7 * Num (2#1) + (Num (369761#100) - Var 0 * Num (45606123#25000000) + (Var 1 - Num (1#1)) * Num (-1725900867#50000000000)) * Var 5 * Var 41 + (Num (8891#160) + (Var 1 - Num (1#1)) * Num (8891#4000000)) * Var 6 * Var 6 + (Num (51777#400) - Var 0 * Num (45606123#50000000) + (Var 1 - Num (1#1)) * Num (810649133#100000000000)) * Var 6 * Var 7 * Num (2#1) + (Num (369761#200) - Var 0 * Num (45606123#50000000) + (Var 1 - Num (1#1)) * Num (-1725900867#100000000000)) * Var 6 * Var 41 + (Num (59099#100) - Var 0 * Num (-45606123#25000000) + (Var 1 - Num (1#1)) * Num (-2248899133#50000000000)) * Var 7 * Var 7 * Num (3#1) + (Num (-106169#25) - Var 0 * Num (-45606123#25000000) + (Var 1 - Num (1#1)) * Num (-627599133#50000000000)) * Var 7 * Var 41 * Num (2#1) + (Num (-213907#20) + (Var 1 - Num (1#1)) * Num (9937#100000)) * Var 41 * Var 41].
(** sources/clinopyroxene.c 2362-2372: macros DGDSi *)
Definition oCpx_s1 :=
  [Num (83143#20000) * Var 0 * (Log 6 - Log 4 + Log 10 - Log 11) + Num (-66928#25) + Num (-763929#200) * Var 2 + Num (-493611#25) * Var 3 + Num (167353#50) * Var 4 + Num (-4131#2) * Var 5 + Num (-7322#1) * Var 6 + Num (212047#50) * Var 7 + Num (-17835#2) * Var 40 * Num (2#1) + Num (780493#100) * Var 41;
    Num (83143#20000) * Var 0 * (Log 7 - Log 5 + Log 8 - Log 9) + (Num (-12264970801#1250000) + (Var 1 - Num (1#1)) * Num (-64949#10000000)) + (Num (-77927#25) + (Var 1 - Num (1#1)) * Num (10983#125000)) * Var 2 + (Num (18843704199#2500000) - Var 0 * Num (-13502291#25000000) + (Var 1 - Num (1#1)) * Num (175631#20000000)) * Var 3 + (Num (19922304199#2500000) - Var 0 * Num (-13502291#25000000) + (Var 1 - Num (1#1)) * Num (175631#20000000)) * Var 4 + (Num (-1067933301#1250000) - Var 0 * Num (-13502291#12500000) + (Var 1 - Num (1#1)) * Num (91951#10000000)) * Var 5 + (Num (18594841699#2500000) - Var 0 * Num (-13502291#25000000) + (Var 1 - Num (1#1)) * Num (91951#20000000)) * Var 6 + (Num (6825770801#1250000) - Var 0 * Num (14522141#5000000) + (Var 1 - Num (1#1)) * Num (952344133#50000000000)) * Var 7 + Num (780493#100) * Var 40 + (Num (1492119#200) + (Var 1 - Num (1#1)) * Num (-22489#250000)) * Var 41 * Num (2#1) + (Num (-6799#20) + (Var 1 - Num (1#1)) * Num (5753#500000)) * Var 2 * Var 2 + (Num (51777#10) + (Var 1 - Num (1#1)) * Num (-10983#250000)) * Var 2 * Var 3 + (Num (51777#10) + (Var 1 - Num (1#1)) * Num (-10983#250000)) * Var 2 * Var 4 + (Num (51777#10) + (Var 1 - Num (1#1)) * Num (-10983#250000)) * Var 2 * Var 5 + (Num (51777#20) + (Var 1 - Num (1#1)) * Num (-10983#500000)) * Var 2 * Var 6 + (Num (213907#20) + (Var 1 - Num (1#1)) * Num (-9937#100000)) * Var 2 * Var 7 + (Num (6799#40) + (Var 1 - Num (1#1)) * Num (-5753#1000000)) * Var 2 * Var 41 * Num (2#1) + (Num (7322#5) + (Var 1 - Num (1#1)) * Num (-523#31250)) * Var 3 * Var 3 + (Num (94663#40) + (Var 1 - Num (1#1)) * Num (-30857#1000000)) * Var 3 * Var 4 + (Num (139641#40) + (Var 1 - Num (1#1)) * Num (-36087#1000000)) * Var 3 * Var 5 + (Num (7322#5) + (Var 1 - Num (1#1)) * Num (-523#31250)) * Var 3 * Var 6 + (Num (30857#25) - Var 0 * Num (45606123#50000000) + (Var 1 - Num (1#1)) * Num (-2928800867#100000000000)) * Var 3 * Var 7 + (Num (-450303#80) + (Var 1 - Num (1#1)) * Num (20397#400000)) * Var 3 * Var 41 * Num (2#1) + (Num (7322#5) + (Var 1 - Num (1#1)) * Num (-523#31250)) * Var 4 * Var 4 + (Num (139641#40) + (Var 1 - Num (1#1)) * Num (-36087#1000000)) * Var 4 * Var 5 + (Num (16213#8) + (Var 1 - Num (1#1)) * Num (-19351#1000000)) * Var 4 * Var 6 + (Num (30857#25) - Var 0 * Num (45606123#50000000) + (Var 1 - Num (1#1)) * Num (-2928800867#100000000000)) * Var 4 * Var 7 + (Num (-450303#80) + (Var 1 - Num (1#1)) * Num (20397#400000)) * Var 4 * Var 41 * Num (2#1) + (Num (51777#20) + (Var 1 - Num (1#1)) * Num (-10983#500000)) * Var 5 * Var 5 + (Num (51777#20) + (Var 1 - Num (1#1)) * Num (-10983#500000)) * Var 5 * Var 6 + (Num (369761#100) - Var 0 * Num (45606123#25000000) + (Var 1 - Num (1#1)) * Num (-1725900867#50000000000)) * Var 5 * Var 7 + (Num (-213907#40) + (Var 1 - Num (1#1)) * Num (9937#200000)) * Var 5 * Var 41 * Num (2#1) + (Num (126043#160) + (Var 1 - Num (1#1)) * Num (-24581#4000000)) * Var 6 * Var 6 + (Num (369761#200) - Var 0 * Num (45606123#50000000) + (Var 1 - Num (1#1)) * Num (-1725900867#100000000000)) * Var 6 * Var 7 + (Num (-213907#80) + (Var 1 - Num (1#1)) * Num (9937#400000)) * Var 6 * Var 41 * Num (2#1) + (Num (-106169#25) - Var 0 * Num (-45606123#25000000) + (Var 1 - Num (1#1)) * Num (-627599133#50000000000)) * Var 7 * Var 7 + (Num (-213907#20) + (Var 1 - Num (1#1)) * Num (9937#100000)) * Var 7 * Var 41 * Num (2#1)].
(** sources/clinopyroxene.c 3206: macro fillD2GDR2 *)
Definition oCpx_d2gdr2 :=
  [[Num (83143#10000) * Var 0 * (Num (1#1) / Site 5 + Num (1#1) / Site 7) + Num (-351456#25) + (Num (6799#20) + (Var 1 - Num (1#1)) * Num (-5753#500000)) * Var 7 * Num (2#1) + (Num (-6799#20) + (Var 1 - Num (1#1)) * Num (5753#500000)) * Var 41 * Num (2#1);
    Num (83143#10000) * Var 0 * Num (1#2) / Site 7 + Num (-223714#25) + (Num (-6799#10) + (Var 1 - Num (1#1)) * Num (5753#250000)) * Var 7 + (Num (51777#10) + (Var 1 - Num (1#1)) * Num (-10983#250000)) * Var 41;
    Num (83143#10000) * Var 0 * Num (1#2) / Site 7 + Num (-456188#25) + (Num (-6799#10) + (Var 1 - Num (1#1)) * Num (5753#250000)) * Var 7 + (Num (51777#10) + (Var 1 - Num (1#1)) * Num (-10983#250000)) * Var 41;
    Num (83143#10000) * Var 0 / Site 7 + Num (-4029543#200) + (Num (-6799#10) + (Var 1 - Num (1#1)) * Num (5753#250000)) * Var 7 + (Num (51777#10) + (Var 1 - Num (1#1)) * Num (-10983#250000)) * Var 41;
    Num (83143#10000) * Var 0 * Num (1#2) / Site 7 + Num (-433951#80) + (Num (-6799#20) + (Var 1 - Num (1#1)) * Num (5753#500000)) * Var 7 + (Num (51777#20) + (Var 1 - Num (1#1)) * Num (-10983#500000)) * Var 41;
    Num (-83143#10000) * Var 0 * Num (1#2) * (Num (1#1) / Site 5 + Num (1#1) / Site 7) + (Num (411241699#625000) - Var 0 * Num (-14522141#2500000) + (Var 1 - Num (1#1)) * Num (-431049#5000000)) + (Num (6799#20) + (Var 1 - Num (1#1)) * Num (-5753#500000)) * Var 2 * Num (2#1) + (Num (-6799#10) + (Var 1 - Num (1#1)) * Num (5753#250000)) * Var 3 + (Num (-6799#10) + (Var 1 - Num (1#1)) * Num (5753#250000)) * Var 4 + (Num (-6799#10) + (Var 1 - Num (1#1)) * Num (5753#250000)) * Var 5 + (Num (-6799#20) + (Var 1 - Num (1#1)) * Num (5753#500000)) * Var 6 + (Num (-202401#200) - Var 0 * Num (45606123#12500000) + (Var 1 - Num (1#1)) * Num (2105074133#25000000000)) * Var 7 * Num (2#1) + (Num (213907#20) + (Var 1 - Num (1#1)) * Num (-9937#100000)) * Var 41];
    [Num (83143#10000) * Var 0 * Num (1#2) / Site 7 + Num (-223714#25) + (Num (-6799#10) + (Var 1 - Num (1#1)) * Num (5753#250000)) * Var 7 + (Num (51777#10) + (Var 1 - Num (1#1)) * Num (-10983#250000)) * Var 41;
    Num (83143#10000) * Var 0 * (Num (1#4) / Site 0 + Num (1#4) / Site 7 - Num (1#4) / Site 13 + Num (1#1) / Site 12 - Num (1#4) / Site 14 + Num (1#4) / Site 16 - Num (1#2) / Site 15 - Num (1#4) / Site 17 + Num (1#2) / Site 10) + Num (-32636#1) + (Num (-7322#5) + (Var 1 - Num (1#1)) * Num (523#31250)) * Var 7 * Num (2#1) + (Num (7322#5) + (Var 1 - Num (1#1)) * Num (-523#31250)) * Var 41 * Num (2#1);
    Num (83143#10000) * Var 0 * (Num (1#4) / Site 0 + Num (1#4) / Site 7 - Num (1#4) / Site 13 + Num (1#1) / Site 12 - Num (1#4) / Site 14 + Num (1#4) / Site 16 - Num (1#2) / Site 15 - Num (1#4) / Site 17) + Num (-18357#1) + (Num (-139641#40) + (Var 1 - Num (1#1)) * Num (36087#1000000)) * Var 7 + (Num (94663#40) + (Var 1 - Num (1#1)) * Num (-30857#1000000)) * Var 41;
    Num (83143#10000) * Var 0 * (Num (1#2) / Site 7 + Num (1#1) / Site 12 - Num (1#2) / Site 14 + Num (1#2) / Site 16 - Num (1#2) / Site 15 - Num (1#2) / Site 17 + Num (1#4) / Site 10) + Num (-136636#25) + (Num (-94663#40) + (Var 1 - Num (1#1)) * Num (30857#1000000)) * Var 7 + (Num (139641#40) + (Var 1 - Num (1#1)) * Num (-36087#1000000)) * Var 41;
    Num (83143#10000) * Var 0 * (Num (1#4) / Site 7 + Num (1#2) / Site 12 - Num (1#4) / Site 14 - Num (1#4) / Site 16 + Num (1#4) / Site 15 - Num (1#4) / Site 17 - Num (1#8) / Site 10) + Num (40802#5) + (Num (-7322#5) + (Var 1 - Num (1#1)) * Num (523#31250)) * Var 7 + (Num (7322#5) + (Var 1 - Num (1#1)) * Num (-523#31250)) * Var 41;
    Num (-83143#10000) * Var 0 * Num (1#4) / Site 7 + (Num (56240879199#2500000) - Var 0 * Num (8880909#25000000) + (Var 1 - Num (1#1)) * Num (-1435929#20000000)) + (Num (-6799#10) + (Var 1 - Num (1#1)) * Num (5753#250000)) * Var 2 + (Num (-7322#5) + (Var 1 - Num (1#1)) * Num (523#31250)) * Var 3 * Num (2#1) + (Num (-139641#40) + (Var 1 - Num (1#1)) * Num (36087#1000000)) * Var 4 + (Num (-94663#40) + (Var 1 - Num (1#1)) * Num (30857#1000000)) * Var 5 + (Num (-7322#5) + (Var 1 - Num (1#1)) * Num (523#31250)) * Var 6 + (Num (-769333#400) - Var 0 * Num (45606123#50000000) + (Var 1 - Num (1#1)) * Num (2013549133#100000000000)) * Var 7 * Num (2#1) + (Num (30857#25) - Var 0 * Num (45606123#50000000) + (Var 1 - Num (1#1)) * Num (-2928800867#100000000000)) * Var 41];
    [Num (83143#10000) * Var 0 * Num (1#2) / Site 7 + Num (-456188#25) + (Num (-6799#10) + (Var 1 - Num (1#1)) * Num (5753#250000)) * Var 7 + (Num (51777#10) + (Var 1 - Num (1#1)) * Num (-10983#250000)) * Var 41;
    Num (83143#10000) * Var 0 * (Num (1#4) / Site 0 + Num (1#4) / Site 7 - Num (1#4) / Site 13 + Num (1#1) / Site 12 - Num (1#4) / Site 14 + Num (1#4) / Site 16 - Num (1#2) / Site 15 - Num (1#4) / Site 17) + Num (-18357#1) + (Num (-139641#40) + (Var 1 - Num (1#1)) * Num (36087#1000000)) * Var 7 + (Num (94663#40) + (Var 1 - Num (1#1)) * Num (-30857#1000000)) * Var 41;
    Num (83143#10000) * Var 0 * (Num (1#4) / Site 0 + Num (1#4) / Site 7 - Num (1#4) / Site 13 + Num (1#1) / Site 12 - Num (1#4) / Site 14 + Num (1#4) / Site 16 - Num (1#2) / Site 15 - Num (1#4) / Site 17 + Num (1#2) / Site 11) + Num (-37656#1) + (Num (-7322#5) + (Var 1 - Num (1#1)) * Num (523#31250)) * Var 7 * Num (2#1) + (Num (7322#5) + (Var 1 - Num (1#1)) * Num (-523#31250)) * Var 41 * Num (2#1);
    Num (83143#10000) * Var 0 * (Num (1#2) / Site 7 + Num (1#1) / Site 12 - Num (1#2) / Site 14 + Num (1#2) / Site 16 - Num (1#2) / Site 15 - Num (1#2) / Site 17 + Num (1#4) / Site 11) + Num (-797597#50) + (Num (-94663#40) + (Var 1 - Num (1#1)) * Num (30857#1000000)) * Var 7 + (Num (139641#40) + (Var 1 - Num (1#1)) * Num (-36087#1000000)) * Var 41;
    Num (83143#10000) * Var 0 * (Num (1#4) / Site 7 + Num (1#2) / Site 12 - Num (1#4) / Site 14 - Num (1#4) / Site 16 + Num (1#4) / Site 15 - Num (1#4) / Site 17 - Num (1#8) / Site 11) + Num (465043#20) + (Num (-36087#40) + (Var 1 - Num (1#1)) * Num (14121#1000000)) * Var 7 + (Num (16213#8) + (Var 1 - Num (1#1)) * Num (-19351#1000000)) * Var 41;
    Num (-83143#10000) * Var 0 * Num (1#4) / Site 7 + (Num (67869804199#2500000) - Var 0 * Num (8880909#25000000) + (Var 1 - Num (1#1)) * Num (-1435929#20000000)) + (Num (-6799#10) + (Var 1 - Num (1#1)) * Num (5753#250000)) * Var 2 + (Num (-139641#40) + (Var 1 - Num (1#1)) * Num (36087#1000000)) * Var 3 + (Num (-7322#5) + (Var 1 - Num (1#1)) * Num (523#31250)) * Var 4 * Num (2#1) + (Num (-94663#40) + (Var 1 - Num (1#1)) * Num (30857#1000000)) * Var 5 + (Num (-36087#40) + (Var 1 - Num (1#1)) * Num (14121#1000000)) * Var 6 + (Num (-769333#400) - Var 0 * Num (45606123#50000000) + (Var 1 - Num (1#1)) * Num (2013549133#100000000000)) * Var 7 * Num (2#1) + (Num (30857#25) - Var 0 * Num (45606123#50000000) + (Var 1 - Num (1#1)) * Num (-2928800867#100000000000)) * Var 41];
    [Num (83143#10000) * Var 0 / Site 7 + Num (-4029543#200) + (Num (-6799#10) + (Var 1 - Num (1#1)) * Num (5753#250000)) * Var 7 + (Num (51777#10) + (Var 1 - Num (1#1)) * Num (-10983#250000)) * Var 41;
    Num (83143#10000) * Var 0 * (Num (1#2) / Site 7 + Num (1#1) / Site 12 - Num (1#2) / Site 14 + Num (1#2) / Site 16 - Num (1#2) / Site 15 - Num (1#2) / Site 17 + Num (1#4) / Site 10) + Num (-136636#25) + (Num (-94663#40) + (Var 1 - Num (1#1)) * Num (30857#1000000)) * Var 7 + (Num (139641#40) + (Var 1 - Num (1#1)) * Num (-36087#1000000)) * Var 41;
    Num (83143#10000) * Var 0 * (Num (1#2) / Site 7 + Num (1#1) / Site 12 - Num (1#2) / Site 14 + Num (1#2) / Site 16 - Num (1#2) / Site 15 - Num (1#2) / Site 17 + Num (1#4) / Site 11) + Num (-797597#50) + (Num (-94663#40) + (Var 1 - Num (1#1)) * Num (30857#1000000)) * Var 7 + (Num (139641#40) + (Var 1 - Num (1#1)) * Num (-36087#1000000)) * Var 41;
    Num (83143#10000) * Var 0 * (Num (1#4) / Site 4 + Num (1#4) / Site 6 + Num (1#1) / Site 7 + Num (1#1) / Site 12 - Num (1#1) / Site 14 - Num (1#2) / Site 15 + Num (1#8) / Site 10 + Num (1#8) / Site 11 + Num (1#1) / Site 16 - Num (1#1) / Site 17) + Num (-19874#1) + (Num (-6799#20) + (Var 1 - Num (1#1)) * Num (5753#500000)) * Var 7 * Num (2#1) + (Num (51777#20) + (Var 1 - Num (1#1)) * Num (-10983#500000)) * Var 41 * Num (2#1);
    Num (83143#10000) * Var 0 * (Num (1#8) / Site 4 + Num (1#8) / Site 6 + Num (1#2) / Site 7 + Num (1#2) / Site 12 - Num (1#2) / Site 14 + Num (1#4) / Site 15 - Num (1#16) / Site 10 - Num (1#16) / Site 11 - Num (1#2) / Site 16 - Num (1#2) / Site 17) + Num (-64905#4) + (Num (-6799#20) + (Var 1 - Num (1#1)) * Num (5753#500000)) * Var 7 + (Num (51777#20) + (Var 1 - Num (1#1)) * Num (-10983#500000)) * Var 41;
    Num (-83143#10000) * Var 0 * Num (1#2) / Site 7 + (Num (22085641699#1250000) - Var 0 * Num (-2310691#12500000) + (Var 1 - Num (1#1)) * Num (-713829#10000000)) + (Num (-6799#10) + (Var 1 - Num (1#1)) * Num (5753#250000)) * Var 2 + (Num (-94663#40) + (Var 1 - Num (1#1)) * Num (30857#1000000)) * Var 3 + (Num (-94663#40) + (Var 1 - Num (1#1)) * Num (30857#1000000)) * Var 4 + (Num (-6799#20) + (Var 1 - Num (1#1)) * Num (5753#500000)) * Var 5 * Num (2#1) + (Num (-6799#20) + (Var 1 - Num (1#1)) * Num (5753#500000)) * Var 6 + (Num (51777#200) - Var 0 * Num (45606123#25000000) + (Var 1 - Num (1#1)) * Num (810649133#50000000000)) * Var 7 * Num (2#1) + (Num (369761#100) - Var 0 * Num (45606123#25000000) + (Var 1 - Num (1#1)) * Num (-1725900867#50000000000)) * Var 41];
    [Num (83143#10000) * Var 0 * Num (1#2) / Site 7 + Num (-433951#80) + (Num (-6799#20) + (Var 1 - Num (1#1)) * Num (5753#500000)) * Var 7 + (Num (51777#20) + (Var 1 - Num (1#1)) * Num (-10983#500000)) * Var 41;
    Num (83143#10000) * Var 0 * (Num (1#4) / Site 7 + Num (1#2) / Site 12 - Num (1#4) / Site 14 - Num (1#4) / Site 16 + Num (1#4) / Site 15 - Num (1#4) / Site 17 - Num (1#8) / Site 10) + Num (40802#5) + (Num (-7322#5) + (Var 1 - Num (1#1)) * Num (523#31250)) * Var 7 + (Num (7322#5) + (Var 1 - Num (1#1)) * Num (-523#31250)) * Var 41;
    Num (83143#10000) * Var 0 * (Num (1#4) / Site 7 + Num (1#2) / Site 12 - Num (1#4) / Site 14 - Num (1#4) / Site 16 + Num (1#4) / Site 15 - Num (1#4) / Site 17 - Num (1#8) / Site 11) + Num (465043#20) + (Num (-36087#40) + (Var 1 - Num (1#1)) * Num (14121#1000000)) * Var 7 + (Num (16213#8) + (Var 1 - Num (1#1)) * Num (-19351#1000000)) * Var 41;
    Num (83143#10000) * Var 0 * (Num (1#8) / Site 4 + Num (1#8) / Site 6 + Num (1#2) / Site 7 + Num (1#2) / Site 12 - Num (1#2) / Site 14 + Num (1#4) / Site 15 - Num (1#16) / Site 10 - Num (1#16) / Site 11 - Num (1#2) / Site 16 - Num (1#2) / Site 17) + Num (-64905#4) + (Num (-6799#20) + (Var 1 - Num (1#1)) * Num (5753#500000)) * Var 7 + (Num (51777#20) + (Var 1 - Num (1#1)) * Num (-10983#500000)) * Var 41;
    Num (83143#10000) * Var 0 * (Num (1#16) / Site 4 + Num (1#16) / Site 6 + Num (1#4) / Site 7 + Num (1#4) / Site 12 - Num (1#4) / Site 14 - Num (1#8) / Site 15 + Num (1#32) / Site 10 + Num (1#32) / Site 11 + Num (1#1) / Site 1 + Num (1#1) / Site 2 + Num (1#4) / Site 16 - Num (1#4) / Site 17 - Num (1#1) / Site 18) + Num (69887#4) + (Num (8891#160) + (Var 1 - Num (1#1)) * Num (8891#4000000)) * Var 7 * Num (2#1) + (Num (126043#160) + (Var 1 - Num (1#1)) * Num (-24581#4000000)) * Var 41 * Num (2#1);
    Num (83143#10000) * Var 0 * (Num (-1#4) / Site 7 + Num (1#1) / Site 1) + (Num (-1628645801#2500000) - Var 0 * Num (-2310691#25000000) + (Var 1 - Num (1#1)) * Num (-713829#20000000)) + (Num (-6799#20) + (Var 1 - Num (1#1)) * Num (5753#500000)) * Var 2 + (Num (-7322#5) + (Var 1 - Num (1#1)) * Num (523#31250)) * Var 3 + (Num (-36087#40) + (Var 1 - Num (1#1)) * Num (14121#1000000)) * Var 4 + (Num (-6799#20) + (Var 1 - Num (1#1)) * Num (5753#500000)) * Var 5 + (Num (8891#160) + (Var 1 - Num (1#1)) * Num (8891#4000000)) * Var 6 * Num (2#1) + (Num (51777#400) - Var 0 * Num (45606123#50000000) + (Var 1 - Num (1#1)) * Num (810649133#100000000000)) * Var 7 * Num (2#1) + (Num (369761#200) - Var 0 * Num (45606123#50000000) + (Var 1 - Num (1#1)) * Num (-1725900867#100000000000)) * Var 41];
    [Num (-83143#10000) * Var 0 * Num (1#2) * (Num (1#1) / Site 5 + Num (1#1) / Site 7) + (Num (411241699#625000) - Var 0 * Num (-14522141#2500000) + (Var 1 - Num (1#1)) * Num (-431049#5000000)) + (Num (6799#20) + (Var 1 - Num (1#1)) * Num (-5753#500000)) * Var 2 * Num (2#1) + (Num (-6799#10) + (Var 1 - Num (1#1)) * Num (5753#250000)) * Var 3 + (Num (-6799#10) + (Var 1 - Num (1#1)) * Num (5753#250000)) * Var 4 + (Num (-6799#10) + (Var 1 - Num (1#1)) * Num (5753#250000)) * Var 5 + (Num (-6799#20) + (Var 1 - Num (1#1)) * Num (5753#500000)) * Var 6 + (Num (-202401#200) - Var 0 * Num (45606123#12500000) + (Var 1 - Num (1#1)) * Num (2105074133#25000000000)) * Var 7 * Num (2#1) + (Num (213907#20) + (Var 1 - Num (1#1)) * Num (-9937#100000)) * Var 41;
    Num (-83143#10000) * Var 0 * Num (1#4) / Site 7 + (Num (56240879199#2500000) - Var 0 * Num (8880909#25000000) + (Var 1 - Num (1#1)) * Num (-1435929#20000000)) + (Num (-6799#10) + (Var 1 - Num (1#1)) * Num (5753#250000)) * Var 2 + (Num (-7322#5) + (Var 1 - Num (1#1)) * Num (523#31250)) * Var 3 * Num (2#1) + (Num (-139641#40) + (Var 1 - Num (1#1)) * Num (36087#1000000)) * Var 4 + (Num (-94663#40) + (Var 1 - Num (1#1)) * Num (30857#1000000)) * Var 5 + (Num (-7322#5) + (Var 1 - Num (1#1)) * Num (523#31250)) * Var 6 + (Num (-769333#400) - Var 0 * Num (45606123#50000000) + (Var 1 - Num (1#1)) * Num (2013549133#100000000000)) * Var 7 * Num (2#1) + (Num (30857#25) - Var 0 * Num (45606123#50000000) + (Var 1 - Num (1#1)) * Num (-2928800867#100000000000)) * Var 41;
    Num (-83143#10000) * Var 0 * Num (1#4) / Site 7 + (Num (67869804199#2500000) - Var 0 * Num (8880909#25000000) + (Var 1 - Num (1#1)) * Num (-1435929#20000000)) + (Num (-6799#10) + (Var 1 - Num (1#1)) * Num (5753#250000)) * Var 2 + (Num (-139641#40) + (Var 1 - Num (1#1)) * Num (36087#1000000)) * Var 3 + (Num (-7322#5) + (Var 1 - Num (1#1)) * Num (523#31250)) * Var 4 * Num (2#1) + (Num (-94663#40) + (Var 1 - Num (1#1)) * Num (30857#1000000)) * Var 5 + (Num (-36087#40) + (Var 1 - Num (1#1)) * Num (14121#1000000)) * Var 6 + (Num (-769333#400) - Var 0 * Num (45606123#50000000) + (Var 1 - Num (1#1)) * Num (2013549133#100000000000)) * Var 7 * Num (2#1) + (Num (30857#25) - Var 0 * Num (45606123#50000000) + (Var 1 - Num (1#1)) * Num (-2928800867#100000000000)) * Var 41;
    Num (-83143#10000) * Var 0 * Num (1#2) / Site 7 + (Num (22085641699#1250000) - Var 0 * Num (-2310691#12500000) + (Var 1 - Num (1#1)) * Num (-713829#10000000)) + (Num (-6799#10) + (Var 1 - Num (1#1)) * Num (5753#250000)) * Var 2 + (Num (-94663#40) + (Var 1 - Num (1#1)) * Num (30857#1000000)) * Var 3 + (Num (-94663#40) + (Var 1 - Num (1#1)) * Num (30857#1000000)) * Var 4 + (Num (-6799#20) + (Var 1 - Num (1#1)) * Num (5753#500000)) * Var 5 * Num (2#1) + (Num (-6799#20) + (Var 1 - Num (1#1)) * Num (5753#500000)) * Var 6 + (Num (51777#200) - Var 0 * Num (45606123#25000000) + (Var 1 - Num (1#1)) * Num (810649133#50000000000)) * Var 7 * Num (2#1) + (Num (369761#100) - Var 0 * Num (45606123#25000000) + (Var 1 - Num (1#1)) * Num (-1725900867#50000000000)) * Var 41;
    Num (83143#10000) * Var 0 * (Num (-1#4) / Site 7 + Num (1#1) / Site 1) + (Num (-1628645801#2500000) - Var 0 * Num (-2310691#25000000) + (Var 1 - Num (1#1)) * Num (-713829#20000000)) + (Num (-6799#20) + (Var 1 - Num (1#1)) * Num (5753#500000)) * Var 2 + (Num (-7322#5) + (Var 1 - Num (1#1)) * Num (523#31250)) * Var 3 + (Num (-36087#40) + (Var 1 - Num (1#1)) * Num (14121#1000000)) * Var 4 + (Num (-6799#20) + (Var 1 - Num (1#1)) * Num (5753#500000)) * Var 5 + (Num (8891#160) + (Var 1 - Num (1#1)) * Num (8891#4000000)) * Var 6 * Num (2#1) + (Num (51777#400) - Var 0 * Num (45606123#50000000) + (Var 1 - Num (1#1)) * Num (810649133#100000000000)) * Var 7 * Num (2#1) + (Num (369761#200) - Var 0 * Num (45606123#50000000) + (Var 1 - Num (1#1)) * Num (-1725900867#100000000000)) * Var 41;
    Num (83143#10000) * Var 0 * (Num (1#4) / Site 7 + Num (1#4) / Site 5 + Num (1#1) / Site 1 + Num (1#4) / Site 9 + Num (1#4) / Site 8) + (Num (-21955572949#1250000) - Var 0 * Num (28998781#5000000) + (Var 1 - Num (1#1)) * Num (2312144133#50000000000)) * Num (2#1) + (Num (-202401#200) - Var 0 * Num (45606123#12500000) + (Var 1 - Num (1#1)) * Num (2105074133#25000000000)) * Var 2 * Num (2#1) + (Num (-769333#400) - Var 0 * Num (45606123#50000000) + (Var 1 - Num (1#1)) * Num (2013549133#100000000000)) * Var 3 * Num (2#1) + (Num (-769333#400) - Var 0 * Num (45606123#50000000) + (Var 1 - Num (1#1)) * Num (2013549133#100000000000)) * Var 4 * Num (2#1) + (Num (51777#200) - Var 0 * Num (45606123#25000000) + (Var 1 - Num (1#1)) * Num (810649133#50000000000)) * Var 5 * Num (2#1) + (Num (51777#400) - Var 0 * Num (45606123#50000000) + (Var 1 - Num (1#1)) * Num (810649133#100000000000)) * Var 6 * Num (2#1) + (Num (59099#100) - Var 0 * Num (-45606123#25000000) + (Var 1 - Num (1#1)) * Num (-2248899133#50000000000)) * Var 7 * Num (6#1) + (Num (-106169#25) - Var 0 * Num (-45606123#25000000) + (Var 1 - Num (1#1)) * Num (-627599133#50000000000)) * Var 41 * Num (2#1)]].
(** sources/clinopyroxene.c 3226: macro fillD2GDRDS *)
Definition oCpx_d2gdrds :=
  [[Num (-763929#200);
    Num (-83143#10000) * Var 0 * Num (1#2) * (Num (1#1) / Site 5 + Num (1#1) / Site 7) + (Num (-77927#25) + (Var 1 - Num (1#1)) * Num (10983#125000)) + (Num (-6799#20) + (Var 1 - Num (1#1)) * Num (5753#500000)) * Var 2 * Num (2#1) + (Num (51777#10) + (Var 1 - Num (1#1)) * Num (-10983#250000)) * Var 3 + (Num (51777#10) + (Var 1 - Num (1#1)) * Num (-10983#250000)) * Var 4 + (Num (51777#10) + (Var 1 - Num (1#1)) * Num (-10983#250000)) * Var 5 + (Num (51777#20) + (Var 1 - Num (1#1)) * Num (-10983#500000)) * Var 6 + (Num (213907#20) + (Var 1 - Num (1#1)) * Num (-9937#100000)) * Var 7 + (Num (6799#40) + (Var 1 - Num (1#1)) * Num (-5753#1000000)) * Var 41 * Num (2#1)];
    [Num (83143#10000) * Var 0 * Num (1#4) / Site 10 + Num (-493611#25);
    Num (-83143#10000) * Var 0 * Num (1#4) / Site 7 + (Num (18843704199#2500000) - Var 0 * Num (-13502291#25000000) + (Var 1 - Num (1#1)) * Num (175631#20000000)) + (Num (51777#10) + (Var 1 - Num (1#1)) * Num (-10983#250000)) * Var 2 + (Num (7322#5) + (Var 1 - Num (1#1)) * Num (-523#31250)) * Var 3 * Num (2#1) + (Num (94663#40) + (Var 1 - Num (1#1)) * Num (-30857#1000000)) * Var 4 + (Num (139641#40) + (Var 1 - Num (1#1)) * Num (-36087#1000000)) * Var 5 + (Num (7322#5) + (Var 1 - Num (1#1)) * Num (-523#31250)) * Var 6 + (Num (30857#25) - Var 0 * Num (45606123#50000000) + (Var 1 - Num (1#1)) * Num (-2928800867#100000000000)) * Var 7 + (Num (-450303#80) + (Var 1 - Num (1#1)) * Num (20397#400000)) * Var 41 * Num (2#1)];
    [Num (-83143#10000) * Var 0 * Num (1#4) / Site 11 + Num (167353#50);
    Num (-83143#10000) * Var 0 * Num (1#4) / Site 7 + (Num (19922304199#2500000) - Var 0 * Num (-13502291#25000000) + (Var 1 - Num (1#1)) * Num (175631#20000000)) + (Num (51777#10) + (Var 1 - Num (1#1)) * Num (-10983#250000)) * Var 2 + (Num (94663#40) + (Var 1 - Num (1#1)) * Num (-30857#1000000)) * Var 3 + (Num (7322#5) + (Var 1 - Num (1#1)) * Num (-523#31250)) * Var 4 * Num (2#1) + (Num (139641#40) + (Var 1 - Num (1#1)) * Num (-36087#1000000)) * Var 5 + (Num (16213#8) + (Var 1 - Num (1#1)) * Num (-19351#1000000)) * Var 6 + (Num (30857#25) - Var 0 * Num (45606123#50000000) + (Var 1 - Num (1#1)) * Num (-2928800867#100000000000)) * Var 7 + (Num (-450303#80) + (Var 1 - Num (1#1)) * Num (20397#400000)) * Var 41 * Num (2#1)];
    [Num (83143#10000) * Var 0 * Num (1#4) * (Num (1#1) / Site 6 - Num (1#1) / Site 4 + Num (1#2) / Site 10 - Num (1#2) / Site 11) + Num (-4131#2);
    Num (-83143#10000) * Var 0 * Num (1#2) / Site 7 + (Num (-1067933301#1250000) - Var 0 * Num (-13502291#12500000) + (Var 1 - Num (1#1)) * Num (91951#10000000)) + (Num (51777#10) + (Var 1 - Num (1#1)) * Num (-10983#250000)) * Var 2 + (Num (139641#40) + (Var 1 - Num (1#1)) * Num (-36087#1000000)) * Var 3 + (Num (139641#40) + (Var 1 - Num (1#1)) * Num (-36087#1000000)) * Var 4 + (Num (51777#20) + (Var 1 - Num (1#1)) * Num (-10983#500000)) * Var 5 * Num (2#1) + (Num (51777#20) + (Var 1 - Num (1#1)) * Num (-10983#500000)) * Var 6 + (Num (369761#100) - Var 0 * Num (45606123#25000000) + (Var 1 - Num (1#1)) * Num (-1725900867#50000000000)) * Var 7 + (Num (-213907#40) + (Var 1 - Num (1#1)) * Num (9937#200000)) * Var 41 * Num (2#1)];
    [Num (83143#10000) * Var 0 * (Num (-1#8) / Site 4 + Num (1#8) / Site 6 - Num (1#16) / Site 10 + Num (1#16) / Site 11) + Num (-7322#1);
    Num (-83143#10000) * Var 0 * Num (1#4) / Site 7 + (Num (18594841699#2500000) - Var 0 * Num (-13502291#25000000) + (Var 1 - Num (1#1)) * Num (91951#20000000)) + (Num (51777#20) + (Var 1 - Num (1#1)) * Num (-10983#500000)) * Var 2 + (Num (7322#5) + (Var 1 - Num (1#1)) * Num (-523#31250)) * Var 3 + (Num (16213#8) + (Var 1 - Num (1#1)) * Num (-19351#1000000)) * Var 4 + (Num (51777#20) + (Var 1 - Num (1#1)) * Num (-10983#500000)) * Var 5 + (Num (126043#160) + (Var 1 - Num (1#1)) * Num (-24581#4000000)) * Var 6 * Num (2#1) + (Num (369761#200) - Var 0 * Num (45606123#50000000) + (Var 1 - Num (1#1)) * Num (-1725900867#100000000000)) * Var 7 + (Num (-213907#80) + (Var 1 - Num (1#1)) * Num (9937#400000)) * Var 41 * Num (2#1)];
    [Num (212047#50);
    Num (83143#10000) * Var 0 * (Num (1#4) / Site 7 + Num (1#4) / Site 5 - Num (1#4) / Site 9 + Num (1#4) / Site 8) + (Num (6825770801#1250000) - Var 0 * Num (14522141#5000000) + (Var 1 - Num (1#1)) * Num (952344133#50000000000)) + (Num (213907#20) + (Var 1 - Num (1#1)) * Num (-9937#100000)) * Var 2 + (Num (30857#25) - Var 0 * Num (45606123#50000000) + (Var 1 - Num (1#1)) * Num (-2928800867#100000000000)) * Var 3 + (Num (30857#25) - Var 0 * Num (45606123#50000000) + (Var 1 - Num (1#1)) * Num (-2928800867#100000000000)) * Var 4 + (Num (369761#100) - Var 0 * Num (45606123#25000000) + (Var 1 - Num (1#1)) * Num (-1725900867#50000000000)) * Var 5 + (Num (369761#200) - Var 0 * Num (45606123#50000000) + (Var 1 - Num (1#1)) * Num (-1725900867#100000000000)) * Var 6 + (Num (-106169#25) - Var 0 * Num (-45606123#25000000) + (Var 1 - Num (1#1)) * Num (-627599133#50000000000)) * Var 7 * Num (2#1) + (Num (-213907#20) + (Var 1 - Num (1#1)) * Num (9937#100000)) * Var 41 * Num (2#1)]].
(** sources/clinopyroxene.c 3234: macro fillD2GDRDT *)
Definition oCpx_d2gdrdt :=
  [Num (83143#10000) * (Log 5 - Log 7) - Num (-14522141#2500000) * Var 7 - Num (45606123#12500000) * Var 7 * Var 7;
    Num (83143#10000) * (Num (1#2) * Log 0 - Num (1#2) * Log 7 + Num (1#2) * Log 13 - Log 12 + Num (1#2) * Log 14 + Num (1#2) * Log 16 - Log 15 - Num (1#2) * Log 17 + Log 10) - Num (8880909#25000000) * Var 7 - Num (-13502291#25000000) * Var 41 - Num (45606123#50000000) * Var 7 * Var 7 - Num (45606123#50000000) * Var 7 * Var 41;
    Num (83143#10000) * (Num (1#2) * Log 0 - Num (1#2) * Log 7 + Num (1#2) * Log 13 - Log 12 + Num (1#2) * Log 14 + Num (1#2) * Log 16 - Log 15 - Num (1#2) * Log 17 + Log 11) - Num (8880909#25000000) * Var 7 - Num (-13502291#25000000) * Var 41 - Num (45606123#50000000) * Var 7 * Var 7 - Num (45606123#50000000) * Var 7 * Var 41;
    Num (83143#10000) * (Num (1#2) * Log 4 + Num (1#2) * Log 6 - Log 7 - Log 12 + Log 14 - Log 15 + Num (1#2) * Log 10 + Num (1#2) * Log 11 + Log 16 - Log 17) - Num (-2310691#12500000) * Var 7 - Num (-13502291#12500000) * Var 41 - Num (45606123#25000000) * Var 7 * Var 7 - Num (45606123#25000000) * Var 7 * Var 41;
    Num (83143#10000) * (Num (1#4) * Log 4 + Num (1#4) * Log 6 - Num (1#2) * Log 7 - Num (1#2) * Log 12 + Num (1#2) * Log 14 + Num (1#2) * Log 15 - Num (1#4) * Log 10 - Num (1#4) * Log 11 - Log 1 + Log 2 - Num (1#2) * Log 16 - Num (1#2) * Log 17 + Log 18) - Num (-2310691#25000000) * Var 7 - Num (-13502291#25000000) * Var 41 - Num (45606123#50000000) * Var 7 * Var 7 - Num (45606123#50000000) * Var 7 * Var 41;
    Num (83143#10000) * (Num (1#2) * Log 7 - Num (1#2) * Log 5 - Log 1 + Num (1#2) * Log 9 + Num (1#2) * Log 8) - Num (-49693891#12500000) - Num (-14522141#2500000) * Var 2 - Num (8880909#25000000) * Var 3 - Num (8880909#25000000) * Var 4 - Num (-2310691#12500000) * Var 5 - Num (-2310691#25000000) * Var 6 - Num (28998781#5000000) * Var 7 * Num (2#1) - Num (14522141#5000000) * Var 41 - Num (45606123#12500000) * Var 2 * Var 7 * Num (2#1) - Num (45606123#50000000) * Var 3 * Var 7 * Num (2#1) - Num (45606123#50000000) * Var 3 * Var 41 - Num (45606123#50000000) * Var 4 * Var 7 * Num (2#1) - Num (45606123#50000000) * Var 4 * Var 41 - Num (45606123#25000000) * Var 5 * Var 7 * Num (2#1) - Num (45606123#25000000) * Var 5 * Var 41 - Num (45606123#50000000) * Var 6 * Var 7 * Num (2#1) - Num (45606123#50000000) * Var 6 * Var 41 - Num (-45606123#25000000) * Var 7 * Var 7 * Num (3#1) - Num (-45606123#25000000) * Var 7 * Var 41 * Num (2#1)].
(** sources/clinopyroxene.c 3238: macro fillD2GDRDP *)
Definition oCpx_d2gdrdp :=
  [Num (-431049#5000000) * Var 7 + Num (10983#125000) * Var 41 + Num (-5753#500000) * Var 2 * Var 7 * Num (2#1) + Num (5753#500000) * Var 2 * Var 41 * Num (2#1) + Num (5753#250000) * Var 3 * Var 7 + Num (-10983#250000) * Var 3 * Var 41 + Num (5753#250000) * Var 4 * Var 7 + Num (-10983#250000) * Var 4 * Var 41 + Num (5753#250000) * Var 5 * Var 7 + Num (-10983#250000) * Var 5 * Var 41 + Num (5753#500000) * Var 6 * Var 7 + Num (-10983#500000) * Var 6 * Var 41 + Num (2105074133#25000000000) * Var 7 * Var 7 + Num (-9937#100000) * Var 7 * Var 41 + Num (-5753#1000000) * Var 41 * Var 41;
    Num (-1435929#20000000) * Var 7 + Num (175631#20000000) * Var 41 + Num (5753#250000) * Var 2 * Var 7 + Num (-10983#250000) * Var 2 * Var 41 + Num (523#31250) * Var 3 * Var 7 * Num (2#1) + Num (-523#31250) * Var 3 * Var 41 * Num (2#1) + Num (36087#1000000) * Var 4 * Var 7 + Num (-30857#1000000) * Var 4 * Var 41 + Num (30857#1000000) * Var 5 * Var 7 + Num (-36087#1000000) * Var 5 * Var 41 + Num (523#31250) * Var 6 * Var 7 + Num (-523#31250) * Var 6 * Var 41 + Num (2013549133#100000000000) * Var 7 * Var 7 + Num (-2928800867#100000000000) * Var 7 * Var 41 + Num (20397#400000) * Var 41 * Var 41;
    Num (-1435929#20000000) * Var 7 + Num (175631#20000000) * Var 41 + Num (5753#250000) * Var 2 * Var 7 + Num (-10983#250000) * Var 2 * Var 41 + Num (36087#1000000) * Var 3 * Var 7 + Num (-30857#1000000) * Var 3 * Var 41 + Num (523#31250) * Var 4 * Var 7 * Num (2#1) + Num (-523#31250) * Var 4 * Var 41 * Num (2#1) + Num (30857#1000000) * Var 5 * Var 7 + Num (-36087#1000000) * Var 5 * Var 41 + Num (14121#1000000) * Var 6 * Var 7 + Num (-19351#1000000) * Var 6 * Var 41 + Num (2013549133#100000000000) * Var 7 * Var 7 + Num (-2928800867#100000000000) * Var 7 * Var 41 + Num (20397#400000) * Var 41 * Var 41;
    Num (-713829#10000000) * Var 7 + Num (91951#10000000) * Var 41 + Num (5753#250000) * Var 2 * Var 7 + Num (-10983#250000) * Var 2 * Var 41 + Num (30857#1000000) * Var 3 * Var 7 + Num (-36087#1000000) * Var 3 * Var 41 + Num (30857#1000000) * Var 4 * Var 7 + Num (-36087#1000000) * Var 4 * Var 41 + Num (5753#500000) * Var 5 * Var 7 * Num (2#1) + Num (-10983#500000) * Var 5 * Var 41 * Num (2#1) + Num (5753#500000) * Var 6 * Var 7 + Num (-10983#500000) * Var 6 * Var 41 + Num (810649133#50000000000) * Var 7 * Var 7 + Num (-1725900867#50000000000) * Var 7 * Var 41 + Num (9937#200000) * Var 41 * Var 41;
    Num (-713829#20000000) * Var 7 + Num (91951#20000000) * Var 41 + Num (5753#500000) * Var 2 * Var 7 + Num (-10983#500000) * Var 2 * Var 41 + Num (523#31250) * Var 3 * Var 7 + Num (-523#31250) * Var 3 * Var 41 + Num (14121#1000000) * Var 4 * Var 7 + Num (-19351#1000000) * Var 4 * Var 41 + Num (5753#500000) * Var 5 * Var 7 + Num (-10983#500000) * Var 5 * Var 41 + Num (8891#4000000) * Var 6 * Var 7 * Num (2#1) + Num (-24581#4000000) * Var 6 * Var 41 * Num (2#1) + Num (810649133#100000000000) * Var 7 * Var 7 + Num (-1725900867#100000000000) * Var 7 * Var 41 + Num (9937#400000) * Var 41 * Var 41;
    Num (-106789#10000000) + Num (-431049#5000000) * Var 2 + Num (-1435929#20000000) * Var 3 + Num (-1435929#20000000) * Var 4 + Num (-713829#10000000) * Var 5 + Num (-713829#20000000) * Var 6 + Num (2312144133#50000000000) * Var 7 * Num (2#1) + Num (952344133#50000000000) * Var 41 + Num (-5753#500000) * Var 2 * Var 2 + Num (5753#250000) * Var 2 * Var 3 + Num (5753#250000) * Var 2 * Var 4 + Num (5753#250000) * Var 2 * Var 5 + Num (5753#500000) * Var 2 * Var 6 + Num (2105074133#25000000000) * Var 2 * Var 7 * Num (2#1) + Num (-9937#100000) * Var 2 * Var 41 + Num (523#31250) * Var 3 * Var 3 + Num (36087#1000000) * Var 3 * Var 4 + Num (30857#1000000) * Var 3 * Var 5 + Num (523#31250) * Var 3 * Var 6 + Num (2013549133#100000000000) * Var 3 * Var 7 * Num (2#1) + Num (-2928800867#100000000000) * Var 3 * Var 41 + Num (523#31250) * Var 4 * Var 4 + Num (30857#1000000) * Var 4 * Var 5 + Num (14121#1000000) * Var 4 * Var 6 + Num (2013549133#100000000000) * Var 4 * Var 7 * Num (2#1) + Num (-2928800867#100000000000) * Var 4 * Var 41 + Num (5753#500000) * Var 5 * Var 5 + Num (5753#500000) * Var 5 * Var 6 + Num (810649133#50000000000) * Var 5 * Var 7 * Num (2#1) + Num (-1725900867#50000000000) * Var 5 * Var 41 + Num (8891#4000000) * Var 6 * Var 6 + Num (810649133#100000000000) * Var 6 * Var 7 * Num (2#1) + Num (-1725900867#100000000000) * Var 6 * Var 41 + Num (-2248899133#50000000000) * Var 7 * Var 7 * Num (3#1) + Num (-627599133#50000000000) * Var 7 * Var 41 * Num (2#1) + Num (9937#100000) * Var 41 * Var 41].
(** sources/clinopyroxene.c 3242: macro fillD2GDS2 *)
Definition oCpx_d2gds2 :=
  [[Num (83143#10000) * Var 0 * (Num (1#4) / Site 6 + Num (1#4) / Site 4 + Num (1#8) / Site 10 + Num (1#8) / Site 11) + Num (-17835#1);
    Num (780493#100)];
    [Num (780493#100);
    Num (83143#10000) * Var 0 * (Num (1#4) / Site 7 + Num (1#4) / Site 5 + Num (1#4) / Site 8 + Num (1#4) / Site 9) + (Num (1492119#200) + (Var 1 - Num (1#1)) * Num (-22489#250000)) * Num (2#1) + (Num (6799#40) + (Var 1 - Num (1#1)) * Num (-5753#1000000)) * Var 2 * Num (2#1) + (Num (-450303#80) + (Var 1 - Num (1#1)) * Num (20397#400000)) * Var 3 * Num (2#1) + (Num (-450303#80) + (Var 1 - Num (1#1)) * Num (20397#400000)) * Var 4 * Num (2#1) + (Num (-213907#40) + (Var 1 - Num (1#1)) * Num (9937#200000)) * Var 5 * Num (2#1) + (Num (-213907#80) + (Var 1 - Num (1#1)) * Num (9937#400000)) * Var 6 * Num (2#1) + (Num (-213907#20) + (Var 1 - Num (1#1)) * Num (9937#100000)) * Var 7 * Num (2#1)]].
(** sources/clinopyroxene.c 3246: macro fillD2GDSDT *)
Definition oCpx_d2gdsdt :=
  [Num (83143#20000) * (Log 6 - Log 4 + Log 10 - Log 11);
    Num (83143#20000) * (Log 7 - Log 5 + Log 8 - Log 9) - Num (-13502291#25000000) * Var 3 - Num (-13502291#25000000) * Var 4 - Num (-13502291#12500000) * Var 5 - Num (-13502291#25000000) * Var 6 - Num (14522141#5000000) * Var 7 - Num (45606123#50000000) * Var 3 * Var 7 - Num (45606123#50000000) * Var 4 * Var 7 - Num (45606123#25000000) * Var 5 * Var 7 - Num (45606123#50000000) * Var 6 * Var 7 - Num (-45606123#25000000) * Var 7 * Var 7].
(** sources/clinopyroxene.c 3249: macro fillD2GDSDP *)
Definition oCpx_d2gdsdp :=
  [Num (0#1);
    Num (-64949#10000000) + Num (10983#125000) * Var 2 + Num (175631#20000000) * Var 3 + Num (175631#20000000) * Var 4 + Num (91951#10000000) * Var 5 + Num (91951#20000000) * Var 6 + Num (952344133#50000000000) * Var 7 + Num (-22489#250000) * Var 41 * Num (2#1) + Num (5753#500000) * Var 2 * Var 2 + Num (-10983#250000) * Var 2 * Var 3 + Num (-10983#250000) * Var 2 * Var 4 + Num (-10983#250000) * Var 2 * Var 5 + Num (-10983#500000) * Var 2 * Var 6 + Num (-9937#100000) * Var 2 * Var 7 + Num (-5753#1000000) * Var 2 * Var 41 * Num (2#1) + Num (-523#31250) * Var 3 * Var 3 + Num (-30857#1000000) * Var 3 * Var 4 + Num (-36087#1000000) * Var 3 * Var 5 + Num (-523#31250) * Var 3 * Var 6 + Num (-2928800867#100000000000) * Var 3 * Var 7 + Num (20397#400000) * Var 3 * Var 41 * Num (2#1) + Num (-523#31250) * Var 4 * Var 4 + Num (-36087#1000000) * Var 4 * Var 5 + Num (-19351#1000000) * Var 4 * Var 6 + Num (-2928800867#100000000000) * Var 4 * Var 7 + Num (20397#400000) * Var 4 * Var 41 * Num (2#1) + Num (-10983#500000) * Var 5 * Var 5 + Num (-10983#500000) * Var 5 * Var 6 + Num (-1725900867#50000000000) * Var 5 * Var 7 + Num (9937#200000) * Var 5 * Var 41 * Num (2#1) + Num (-24581#4000000) * Var 6 * Var 6 + Num (-1725900867#100000000000) * Var 6 * Var 7 + Num (9937#400000) * Var 6 * Var 41 * Num (2#1) + Num (-627599133#50000000000) * Var 7 * Var 7 + Num (9937#100000) * Var 7 * Var 41 * Num (2#1)].
(** sources/clinopyroxene.c 3252: macro fillD3GDR3 *)
Definition oCpx_d3gdr3 :=
  [[[Num (83143#10000) * Var 0 * (Num (-1#1) / (Site 5 * Site 5) + Num (1#1) / (Site 7 * Site 7));
    Num (83143#10000) * Var 0 * (Num (1#2) / (Site 7 * Site 7));
    Num (83143#10000) * Var 0 * (Num (1#2) / (Site 7 * Site 7));
    Num (83143#10000) * Var 0 * (Num (1#1) / (Site 7 * Site 7));
    Num (83143#10000) * Var 0 * (Num (1#2) / (Site 7 * Site 7));
    Num (83143#10000) * Var 0 * (Num (1#2) / (Site 5 * Site 5) - Num (1#2) / (Site 7 * Site 7)) + Num (2#1) * (Num (6799#20) + (Var 1 - Num (1#1)) * Num (-5753#500000))];
    [Num (83143#10000) * Var 0 * (Num (1#2) / (Site 7 * Site 7));
    Num (83143#10000) * Var 0 * (Num (1#4) / (Site 7 * Site 7));
    Num (83143#10000) * Var 0 * (Num (1#4) / (Site 7 * Site 7));
    Num (83143#10000) * Var 0 * (Num (1#2) / (Site 7 * Site 7));
    Num (83143#10000) * Var 0 * (Num (1#4) / (Site 7 * Site 7));
    Num (-83143#10000) * Var 0 * Num (1#4) / (Site 7 * Site 7) + (Num (-6799#10) + (Var 1 - Num (1#1)) * Num (5753#250000))];
    [Num (83143#10000) * Var 0 * (Num (1#2) / (Site 7 * Site 7));
    Num (83143#10000) * Var 0 * (Num (1#4) / (Site 7 * Site 7));
    Num (83143#10000) * Var 0 * (Num (1#4) / (Site 7 * Site 7));
    Num (83143#10000) * Var 0 * (Num (1#2) / (Site 7 * Site 7));
    Num (83143#10000) * Var 0 * (Num (1#4) / (Site 7 * Site 7));
    Num (-83143#10000) * Var 0 * Num (1#4) / (Site 7 * Site 7) + (Num (-6799#10) + (Var 1 - Num (1#1)) * Num (5753#250000))];
    [Num (83143#10000) * Var 0 * (Num (1#1) / (Site 7 * Site 7));
    Num (83143#10000) * Var 0 * (Num (1#2) / (Site 7 * Site 7));
    Num (83143#10000) * Var 0 * (Num (1#2) / (Site 7 * Site 7));
    Num (83143#10000) * Var 0 * (Num (1#1) / (Site 7 * Site 7));
    Num (83143#10000) * Var 0 * (Num (1#2) / (Site 7 * Site 7));
    Num (-83143#10000) * Var 0 * Num (1#2) / (Site 7 * Site 7) + (Num (-6799#10) + (Var 1 - Num (1#1)) * Num (5753#250000))];
    [Num (83143#10000) * Var 0 * (Num (1#2) / (Site 7 * Site 7));
    Num (83143#10000) * Var 0 * (Num (1#4) / (Site 7 * Site 7));
    Num (83143#10000) * Var 0 * (Num (1#4) / (Site 7 * Site 7));
    Num (83143#10000) * Var 0 * (Num (1#2) / (Site 7 * Site 7));
    Num (83143#10000) * Var 0 * (Num (1#4) / (Site 7 * Site 7));
    Num (-83143#10000) * Var 0 * Num (1#4) / (Site 7 * Site 7) + (Num (-6799#20) + (Var 1 - Num (1#1)) * Num (5753#500000))];
    [Num (83143#10000) * Var 0 * (Num (1#2) / (Site 5 * Site 5) - Num (1#2) / (Site 7 * Site 7)) + Num (2#1) * (Num (6799#20) + (Var 1 - Num (1#1)) * Num (-5753#500000));
    Num (-83143#10000) * Var 0 * Num (1#4) / (Site 7 * Site 7) + (Num (-6799#10) + (Var 1 - Num (1#1)) * Num (5753#250000));
    Num (-83143#10000) * Var 0 * Num (1#4) / (Site 7 * Site 7) + (Num (-6799#10) + (Var 1 - Num (1#1)) * Num (5753#250000));
    Num (-83143#10000) * Var 0 * Num (1#2) / (Site 7 * Site 7) + (Num (-6799#10) + (Var 1 - Num (1#1)) * Num (5753#250000));
    Num (-83143#10000) * Var 0 * Num (1#4) / (Site 7 * Site 7) + (Num (-6799#20) + (Var 1 - Num (1#1)) * Num (5753#500000));
    Num (83143#10000) * Var 0 * (Num (-1#4) / (Site 5 * Site 5) + Num (1#4) / (Site 7 * Site 7)) + Num (2#1) * (Num (-202401#200) - Var 0 * Num (45606123#12500000) + (Var 1 - Num (1#1)) * Num (2105074133#25000000000))]];
    [[Num (83143#10000) * Var 0 * (Num (1#2) / (Site 7 * Site 7));
    Num (83143#10000) * Var 0 * (Num (1#4) / (Site 7 * Site 7));
    Num (83143#10000) * Var 0 * (Num (1#4) / (Site 7 * Site 7));
    Num (83143#10000) * Var 0 * (Num (1#2) / (Site 7 * Site 7));
    Num (83143#10000) * Var 0 * (Num (1#4) / (Site 7 * Site 7));
    Num (-83143#10000) * Var 0 * Num (1#4) / (Site 7 * Site 7) + (Num (-6799#10) + (Var 1 - Num (1#1)) * Num (5753#250000))];
    [Num (83143#10000) * Var 0 * (Num (1#4) / (Site 7 * Site 7));
    Num (83143#10000) * Var 0 * (Num (-1#8) / (Site 0 * Site 0) + Num (1#8) / (Site 7 * Site 7) - Num (1#8) / (Site 13 * Site 13) + Num (1#1) / (Site 12 * Site 12) - Num (1#8) / (Site 14 * Site 14) + Num (1#4) / (Site 15 * Site 15) - Num (1#8) / (Site 16 * Site 16) + Num (1#8) / (Site 17 * Site 17) - Num (1#4) / (Site 10 * Site 10));
    Num (83143#10000) * Var 0 * (Num (-1#8) / (Site 0 * Site 0) + Num (1#8) / (Site 7 * Site 7) - Num (1#8) / (Site 13 * Site 13) + Num (1#1) / (Site 12 * Site 12) - Num (1#8) / (Site 14 * Site 14) + Num (1#4) / (Site 15 * Site 15) - Num (1#8) / (Site 16 * Site 16) + Num (1#8) / (Site 17 * Site 17));
    Num (83143#10000) * Var 0 * (Num (1#4) / (Site 7 * Site 7) + Num (1#1) / (Site 12 * Site 12) - Num (1#4) / (Site 14 * Site 14) + Num (1#4) / (Site 15 * Site 15) - Num (1#4) / (Site 16 * Site 16) + Num (1#4) / (Site 17 * Site 17) - Num (1#8) / (Site 10 * Site 10));
    Num (83143#10000) * Var 0 * (Num (1#8) / (Site 7 * Site 7) + Num (1#2) / (Site 12 * Site 12) - Num (1#8) / (Site 14 * Site 14) - Num (1#8) / (Site 15 * Site 15) + Num (1#8) / (Site 16 * Site 16) + Num (1#8) / (Site 17 * Site 17) + Num (1#16) / (Site 10 * Site 10));
    Num (-83143#10000) * Var 0 * Num (1#8) / (Site 7 * Site 7) + (Num (-7322#5) + (Var 1 - Num (1#1)) * Num (523#31250)) * Num (2#1)];
    [Num (83143#10000) * Var 0 * (Num (1#4) / (Site 7 * Site 7));
    Num (83143#10000) * Var 0 * (Num (-1#8) / (Site 0 * Site 0) + Num (1#8) / (Site 7 * Site 7) - Num (1#8) / (Site 13 * Site 13) + Num (1#1) / (Site 12 * Site 12) - Num (1#8) / (Site 14 * Site 14) + Num (1#4) / (Site 15 * Site 15) - Num (1#8) / (Site 16 * Site 16) + Num (1#8) / (Site 17 * Site 17));
    Num (83143#10000) * Var 0 * (Num (-1#8) / (Site 0 * Site 0) + Num (1#8) / (Site 7 * Site 7) - Num (1#8) / (Site 13 * Site 13) + Num (1#1) / (Site 12 * Site 12) - Num (1#8) / (Site 14 * Site 14) + Num (1#4) / (Site 15 * Site 15) - Num (1#8) / (Site 16 * Site 16) + Num (1#8) / (Site 17 * Site 17));
    Num (83143#10000) * Var 0 * (Num (1#4) / (Site 7 * Site 7) + Num (1#1) / (Site 12 * Site 12) - Num (1#4) / (Site 14 * Site 14) + Num (1#4) / (Site 15 * Site 15) - Num (1#4) / (Site 16 * Site 16) + Num (1#4) / (Site 17 * Site 17));
    Num (83143#10000) * Var 0 * (Num (1#8) / (Site 7 * Site 7) + Num (1#2) / (Site 12 * Site 12) - Num (1#8) / (Site 14 * Site 14) - Num (1#8) / (Site 15 * Site 15) + Num (1#8) / (Site 16 * Site 16) + Num (1#8) / (Site 17 * Site 17));
    Num (-83143#10000) * Var 0 * Num (1#8) / (Site 7 * Site 7) + (Num (-139641#40) + (Var 1 - Num (1#1)) * Num (36087#1000000))];
    [Num (83143#10000) * Var 0 * (Num (1#2) / (Site 7 * Site 7));
    Num (83143#10000) * Var 0 * (Num (1#4) / (Site 7 * Site 7) + Num (1#1) / (Site 12 * Site 12) - Num (1#4) / (Site 14 * Site 14) + Num (1#4) / (Site 15 * Site 15) - Num (1#4) / (Site 16 * Site 16) + Num (1#4) / (Site 17 * Site 17) - Num (1#8) / (Site 10 * Site 10));
    Num (83143#10000) * Var 0 * (Num (1#4) / (Site 7 * Site 7) + Num (1#1) / (Site 12 * Site 12) - Num (1#4) / (Site 14 * Site 14) + Num (1#4) / (Site 15 * Site 15) - Num (1#4) / (Site 16 * Site 16) + Num (1#4) / (Site 17 * Site 17));
    Num (83143#10000) * Var 0 * (Num (1#2) / (Site 7 * Site 7) + Num (1#1) / (Site 12 * Site 12) - Num (1#2) / (Site 14 * Site 14) + Num (1#4) / (Site 15 * Site 15) - Num (1#2) / (Site 16 * Site 16) + Num (1#2) / (Site 17 * Site 17) - Num (1#16) / (Site 10 * Site 10));
    Num (83143#10000) * Var 0 * (Num (1#4) / (Site 7 * Site 7) + Num (1#2) / (Site 12 * Site 12) - Num (1#4) / (Site 14 * Site 14) - Num (1#8) / (Site 15 * Site 15) + Num (1#4) / (Site 16 * Site 16) + Num (1#4) / (Site 17 * Site 17) + Num (1#32) / (Site 10 * Site 10));
    Num (-83143#10000) * Var 0 * Num (1#4) / (Site 7 * Site 7) + (Num (-94663#40) + (Var 1 - Num (1#1)) * Num (30857#1000000))];
    [Num (83143#10000) * Var 0 * (Num (1#4) / (Site 7 * Site 7));
    Num (83143#10000) * Var 0 * (Num (1#8) / (Site 7 * Site 7) + Num (1#2) / (Site 12 * Site 12) - Num (1#8) / (Site 14 * Site 14) - Num (1#8) / (Site 15 * Site 15) + Num (1#8) / (Site 16 * Site 16) + Num (1#8) / (Site 17 * Site 17) + Num (1#16) / (Site 10 * Site 10));
    Num (83143#10000) * Var 0 * (Num (1#8) / (Site 7 * Site 7) + Num (1#2) / (Site 12 * Site 12) - Num (1#8) / (Site 14 * Site 14) - Num (1#8) / (Site 15 * Site 15) + Num (1#8) / (Site 16 * Site 16) + Num (1#8) / (Site 17 * Site 17));
    Num (83143#10000) * Var 0 * (Num (1#4) / (Site 7 * Site 7) + Num (1#2) / (Site 12 * Site 12) - Num (1#4) / (Site 14 * Site 14) - Num (1#8) / (Site 15 * Site 15) + Num (1#4) / (Site 16 * Site 16) + Num (1#4) / (Site 17 * Site 17) + Num (1#32) / (Site 10 * Site 10));
    Num (83143#10000) * Var 0 * (Num (1#8) / (Site 7 * Site 7) + Num (1#4) / (Site 12 * Site 12) - Num (1#8) / (Site 14 * Site 14) + Num (1#16) / (Site 15 * Site 15) - Num (1#8) / (Site 16 * Site 16) + Num (1#8) / (Site 17 * Site 17) - Num (1#64) / (Site 10 * Site 10));
    Num (-83143#10000) * Var 0 * Num (1#8) / (Site 7 * Site 7) + (Num (-7322#5) + (Var 1 - Num (1#1)) * Num (523#31250))];
    [Num (-83143#10000) * Var 0 * Num (1#4) / (Site 7 * Site 7) + (Num (-6799#10) + (Var 1 - Num (1#1)) * Num (5753#250000));
    Num (-83143#10000) * Var 0 * Num (1#8) / (Site 7 * Site 7) + (Num (-7322#5) + (Var 1 - Num (1#1)) * Num (523#31250)) * Num (2#1);
    Num (-83143#10000) * Var 0 * Num (1#8) / (Site 7 * Site 7) + (Num (-139641#40) + (Var 1 - Num (1#1)) * Num (36087#1000000));
    Num (-83143#10000) * Var 0 * Num (1#4) / (Site 7 * Site 7) + (Num (-94663#40) + (Var 1 - Num (1#1)) * Num (30857#1000000));
    Num (-83143#10000) * Var 0 * Num (1#8) / (Site 7 * Site 7) + (Num (-7322#5) + (Var 1 - Num (1#1)) * Num (523#31250));
    Num (83143#10000) * Var 0 * Num (1#8) / (Site 7 * Site 7) + (Num (-769333#400) - Var 0 * Num (45606123#50000000) + (Var 1 - Num (1#1)) * Num (2013549133#100000000000)) * Num (2#1)]];
    [[Num (83143#10000) * Var 0 * (Num (1#2) / (Site 7 * Site 7));
    Num (83143#10000) * Var 0 * (Num (1#4) / (Site 7 * Site 7));
    Num (83143#10000) * Var 0 * (Num (1#4) / (Site 7 * Site 7));
    Num (83143#10000) * Var 0 * (Num (1#2) / (Site 7 * Site 7));
    Num (83143#10000) * Var 0 * (Num (1#4) / (Site 7 * Site 7));
    Num (-83143#10000) * Var 0 * Num (1#4) / (Site 7 * Site 7) + (Num (-6799#10) + (Var 1 - Num (1#1)) * Num (5753#250000))];
    [Num (83143#10000) * Var 0 * (Num (1#4) / (Site 7 * Site 7));
    Num (83143#10000) * Var 0 * (Num (-1#8) / (Site 0 * Site 0) + Num (1#8) / (Site 7 * Site 7) - Num (1#8) / (Site 13 * Site 13) + Num (1#1) / (Site 12 * Site 12) - Num (1#8) / (Site 14 * Site 14) + Num (1#4) / (Site 15 * Site 15) - Num (1#8) / (Site 16 * Site 16) + Num (1#8) / (Site 17 * Site 17));
    Num (83143#10000) * Var 0 * (Num (-1#8) / (Site 0 * Site 0) + Num (1#8) / (Site 7 * Site 7) - Num (1#8) / (Site 13 * Site 13) + Num (1#1) / (Site 12 * Site 12) - Num (1#8) / (Site 14 * Site 14) + Num (1#4) / (Site 15 * Site 15) - Num (1#8) / (Site 16 * Site 16) + Num (1#8) / (Site 17 * Site 17));
    Num (83143#10000) * Var 0 * (Num (1#4) / (Site 7 * Site 7) + Num (1#1) / (Site 12 * Site 12) - Num (1#4) / (Site 14 * Site 14) + Num (1#4) / (Site 15 * Site 15) - Num (1#4) / (Site 16 * Site 16) + Num (1#4) / (Site 17 * Site 17));
    Num (83143#10000) * Var 0 * (Num (1#8) / (Site 7 * Site 7) + Num (1#2) / (Site 12 * Site 12) - Num (1#8) / (Site 14 * Site 14) - Num (1#8) / (Site 15 * Site 15) + Num (1#8) / (Site 16 * Site 16) + Num (1#8) / (Site 17 * Site 17));
    Num (-83143#10000) * Var 0 * Num (1#8) / (Site 7 * Site 7) + (Num (-139641#40) + (Var 1 - Num (1#1)) * Num (36087#1000000))];
    [Num (83143#10000) * Var 0 * (Num (1#4) / (Site 7 * Site 7));
    Num (83143#10000) * Var 0 * (Num (-1#8) / (Site 0 * Site 0) + Num (1#8) / (Site 7 * Site 7) - Num (1#8) / (Site 13 * Site 13) + Num (1#1) / (Site 12 * Site 12) - Num (1#8) / (Site 14 * Site 14) + Num (1#4) / (Site 15 * Site 15) - Num (1#8) / (Site 16 * Site 16) + Num (1#8) / (Site 17 * Site 17));
    Num (83143#10000) * Var 0 * (Num (-1#8) / (Site 0 * Site 0) + Num (1#8) / (Site 7 * Site 7) - Num (1#8) / (Site 13 * Site 13) + Num (1#1) / (Site 12 * Site 12) - Num (1#8) / (Site 14 * Site 14) + Num (1#4) / (Site 15 * Site 15) - Num (1#8) / (Site 16 * Site 16) + Num (1#8) / (Site 17 * Site 17) - Num (1#4) / (Site 11 * Site 11));
    Num (83143#10000) * Var 0 * (Num (1#4) / (Site 7 * Site 7) + Num (1#1) / (Site 12 * Site 12) - Num (1#4) / (Site 14 * Site 14) + Num (1#4) / (Site 15 * Site 15) - Num (1#4) / (Site 16 * Site 16) + Num (1#4) / (Site 17 * Site 17) - Num (1#8) / (Site 11 * Site 11));
    Num (83143#10000) * Var 0 * (Num (1#8) / (Site 7 * Site 7) + Num (1#2) / (Site 12 * Site 12) - Num (1#8) / (Site 14 * Site 14) - Num (1#8) / (Site 15 * Site 15) + Num (1#8) / (Site 16 * Site 16) + Num (1#8) / (Site 17 * Site 17) + Num (1#16) / (Site 11 * Site 11));
    Num (-83143#10000) * Var 0 * Num (1#8) / (Site 7 * Site 7) + (Num (-7322#5) + (Var 1 - Num (1#1)) * Num (523#31250)) * Num (2#1)];
    [Num (83143#10000) * Var 0 * (Num (1#2) / (Site 7 * Site 7));
    Num (83143#10000) * Var 0 * (Num (1#4) / (Site 7 * Site 7) + Num (1#1) / (Site 12 * Site 12) - Num (1#4) / (Site 14 * Site 14) + Num (1#4) / (Site 15 * Site 15) - Num (1#4) / (Site 16 * Site 16) + Num (1#4) / (Site 17 * Site 17));
    Num (83143#10000) * Var 0 * (Num (1#4) / (Site 7 * Site 7) + Num (1#1) / (Site 12 * Site 12) - Num (1#4) / (Site 14 * Site 14) + Num (1#4) / (Site 15 * Site 15) - Num (1#4) / (Site 16 * Site 16) + Num (1#4) / (Site 17 * Site 17) - Num (1#8) / (Site 11 * Site 11));
    Num (83143#10000) * Var 0 * (Num (1#2) / (Site 7 * Site 7) + Num (1#1) / (Site 12 * Site 12) - Num (1#2) / (Site 14 * Site 14) + Num (1#4) / (Site 15 * Site 15) - Num (1#2) / (Site 16 * Site 16) + Num (1#2) / (Site 17 * Site 17) - Num (1#16) / (Site 11 * Site 11));
    Num (83143#10000) * Var 0 * (Num (1#4) / (Site 7 * Site 7) + Num (1#2) / (Site 12 * Site 12) - Num (1#4) / (Site 14 * Site 14) - Num (1#8) / (Site 15 * Site 15) + Num (1#4) / (Site 16 * Site 16) + Num (1#4) / (Site 17 * Site 17) + Num (1#32) / (Site 11 * Site 11));
    Num (-83143#10000) * Var 0 * Num (1#4) / (Site 7 * Site 7) + (Num (-94663#40) + (Var 1 - Num (1#1)) * Num (30857#1000000))];
    [Num (83143#10000) * Var 0 * (Num (1#4) / (Site 7 * Site 7));
    Num (83143#10000) * Var 0 * (Num (1#8) / (Site 7 * Site 7) + Num (1#2) / (Site 12 * Site 12) - Num (1#8) / (Site 14 * Site 14) - Num (1#8) / (Site 15 * Site 15) + Num (1#8) / (Site 16 * Site 16) + Num (1#8) / (Site 17 * Site 17));
    Num (83143#10000) * Var 0 * (Num (1#8) / (Site 7 * Site 7) + Num (1#2) / (Site 12 * Site 12) - Num (1#8) / (Site 14 * Site 14) - Num (1#8) / (Site 15 * Site 15) + Num (1#8) / (Site 16 * Site 16) + Num (1#8) / (Site 17 * Site 17) + Num (1#16) / (Site 11 * Site 11));
    Num (83143#10000) * Var 0 * (Num (1#4) / (Site 7 * Site 7) + Num (1#2) / (Site 12 * Site 12) - Num (1#4) / (Site 14 * Site 14) - Num (1#8) / (Site 15 * Site 15) + Num (1#4) / (Site 16 * Site 16) + Num (1#4) / (Site 17 * Site 17) + Num (1#32) / (Site 11 * Site 11));
    Num (83143#10000) * Var 0 * (Num (1#8) / (Site 7 * Site 7) + Num (1#4) / (Site 12 * Site 12) - Num (1#8) / (Site 14 * Site 14) + Num (1#16) / (Site 15 * Site 15) - Num (1#8) / (Site 16 * Site 16) + Num (1#8) / (Site 17 * Site 17) - Num (1#64) / (Site 11 * Site 11));
    Num (-83143#10000) * Var 0 * Num (1#8) / (Site 7 * Site 7) + (Num (-36087#40) + (Var 1 - Num (1#1)) * Num (14121#1000000))];
    [Num (-83143#10000) * Var 0 * Num (1#4) / (Site 7 * Site 7) + (Num (-6799#10) + (Var 1 - Num (1#1)) * Num (5753#250000));
    Num (-83143#10000) * Var 0 * Num (1#8) / (Site 7 * Site 7) + (Num (-139641#40) + (Var 1 - Num (1#1)) * Num (36087#1000000));
    Num (-83143#10000) * Var 0 * Num (1#8) / (Site 7 * Site 7) + (Num (-7322#5) + (Var 1 - Num (1#1)) * Num (523#31250)) * Num (2#1);
    Num (-83143#10000) * Var 0 * Num (1#4) / (Site 7 * Site 7) + (Num (-94663#40) + (Var 1 - Num (1#1)) * Num (30857#1000000));
    Num (-83143#10000) * Var 0 * Num (1#8) / (Site 7 * Site 7) + (Num (-36087#40) + (Var 1 - Num (1#1)) * Num (14121#1000000));
    Num (83143#10000) * Var 0 * Num (1#8) / (Site 7 * Site 7) + (Num (-769333#400) - Var 0 * Num (45606123#50000000) + (Var 1 - Num (1#1)) * Num (2013549133#100000000000)) * Num (2#1)]];
    [[Num (83143#10000) * Var 0 * (Num (1#1) / (Site 7 * Site 7));
    Num (83143#10000) * Var 0 * (Num (1#2) / (Site 7 * Site 7));
    Num (83143#10000) * Var 0 * (Num (1#2) / (Site 7 * Site 7));
    Num (83143#10000) * Var 0 * (Num (1#1) / (Site 7 * Site 7));
    Num (83143#10000) * Var 0 * (Num (1#2) / (Site 7 * Site 7));
    Num (-83143#10000) * Var 0 * Num (1#2) / (Site 7 * Site 7) + (Num (-6799#10) + (Var 1 - Num (1#1)) * Num (5753#250000))];
    [Num (83143#10000) * Var 0 * (Num (1#2) / (Site 7 * Site 7));
    Num (83143#10000) * Var 0 * (Num (1#4) / (Site 7 * Site 7) + Num (1#1) / (Site 12 * Site 12) - Num (1#4) / (Site 14 * Site 14) + Num (1#4) / (Site 15 * Site 15) - Num (1#4) / (Site 16 * Site 16) + Num (1#4) / (Site 17 * Site 17) - Num (1#8) / (Site 10 * Site 10));
    Num (83143#10000) * Var 0 * (Num (1#4) / (Site 7 * Site 7) + Num (1#1) / (Site 12 * Site 12) - Num (1#4) / (Site 14 * Site 14) + Num (1#4) / (Site 15 * Site 15) - Num (1#4) / (Site 16 * Site 16) + Num (1#4) / (Site 17 * Site 17));
    Num (83143#10000) * Var 0 * (Num (1#2) / (Site 7 * Site 7) + Num (1#1) / (Site 12 * Site 12) - Num (1#2) / (Site 14 * Site 14) + Num (1#4) / (Site 15 * Site 15) - Num (1#2) / (Site 16 * Site 16) + Num (1#2) / (Site 17 * Site 17) - Num (1#16) / (Site 10 * Site 10));
    Num (83143#10000) * Var 0 * (Num (1#4) / (Site 7 * Site 7) + Num (1#2) / (Site 12 * Site 12) - Num (1#4) / (Site 14 * Site 14) - Num (1#8) / (Site 15 * Site 15) + Num (1#4) / (Site 16 * Site 16) + Num (1#4) / (Site 17 * Site 17) + Num (1#32) / (Site 10 * Site 10));
    Num (-83143#10000) * Var 0 * Num (1#4) / (Site 7 * Site 7) + (Num (-94663#40) + (Var 1 - Num (1#1)) * Num (30857#1000000))];
    [Num (83143#10000) * Var 0 * (Num (1#2) / (Site 7 * Site 7));
    Num (83143#10000) * Var 0 * (Num (1#4) / (Site 7 * Site 7) + Num (1#1) / (Site 12 * Site 12) - Num (1#4) / (Site 14 * Site 14) + Num (1#4) / (Site 15 * Site 15) - Num (1#4) / (Site 16 * Site 16) + Num (1#4) / (Site 17 * Site 17));
    Num (83143#10000) * Var 0 * (Num (1#4) / (Site 7 * Site 7) + Num (1#1) / (Site 12 * Site 12) - Num (1#4) / (Site 14 * Site 14) + Num (1#4) / (Site 15 * Site 15) - Num (1#4) / (Site 16 * Site 16) + Num (1#4) / (Site 17 * Site 17) - Num (1#8) / (Site 11 * Site 11));
    Num (83143#10000) * Var 0 * (Num (1#2) / (Site 7 * Site 7) + Num (1#1) / (Site 12 * Site 12) - Num (1#2) / (Site 14 * Site 14) + Num (1#4) / (Site 15 * Site 15) - Num (1#2) / (Site 16 * Site 16) + Num (1#2) / (Site 17 * Site 17) - Num (1#16) / (Site 11 * Site 11));
    Num (83143#10000) * Var 0 * (Num (1#4) / (Site 7 * Site 7) + Num (1#2) / (Site 12 * Site 12) - Num (1#4) / (Site 14 * Site 14) - Num (1#8) / (Site 15 * Site 15) + Num (1#4) / (Site 16 * Site 16) + Num (1#4) / (Site 17 * Site 17) + Num (1#32) / (Site 11 * Site 11));
    Num (-83143#10000) * Var 0 * Num (1#4) / (Site 7 * Site 7) + (Num (-94663#40) + (Var 1 - Num (1#1)) * Num (30857#1000000))];
    [Num (83143#10000) * Var 0 * (Num (1#1) / (Site 7 * Site 7));
    Num (83143#10000) * Var 0 * (Num (1#2) / (Site 7 * Site 7) + Num (1#1) / (Site 12 * Site 12) - Num (1#2) / (Site 14 * Site 14) + Num (1#4) / (Site 15 * Site 15) - Num (1#2) / (Site 16 * Site 16) + Num (1#2) / (Site 17 * Site 17) - Num (1#16) / (Site 10 * Site 10));
    Num (83143#10000) * Var 0 * (Num (1#2) / (Site 7 * Site 7) + Num (1#1) / (Site 12 * Site 12) - Num (1#2) / (Site 14 * Site 14) + Num (1#4) / (Site 15 * Site 15) - Num (1#2) / (Site 16 * Site 16) + Num (1#2) / (Site 17 * Site 17) - Num (1#16) / (Site 11 * Site 11));
    Num (83143#10000) * Var 0 * (Num (-1#8) / (Site 4 * Site 4) - Num (1#8) / (Site 6 * Site 6) + Num (1#1) / (Site 7 * Site 7) + Num (1#1) / (Site 12 * Site 12) - Num (1#1) / (Site 14 * Site 14) + Num (1#4) / (Site 15 * Site 15) - Num (1#32) / (Site 10 * Site 10) - Num (1#32) / (Site 11 * Site 11) - Num (1#1) / (Site 16 * Site 16) + Num (1#1) / (Site 17 * Site 17));
    Num (83143#10000) * Var 0 * (Num (-1#16) / (Site 4 * Site 4) - Num (1#16) / (Site 6 * Site 6) + Num (1#2) / (Site 7 * Site 7) + Num (1#2) / (Site 12 * Site 12) - Num (1#2) / (Site 14 * Site 14) - Num (1#8) / (Site 15 * Site 15) + Num (1#64) / (Site 10 * Site 10) + Num (1#64) / (Site 11 * Site 11) + Num (1#2) / (Site 16 * Site 16) + Num (1#2) / (Site 17 * Site 17));
    Num (-83143#10000) * Var 0 * Num (1#2) / (Site 7 * Site 7) + (Num (-6799#20) + (Var 1 - Num (1#1)) * Num (5753#500000)) * Num (2#1)];
    [Num (83143#10000) * Var 0 * (Num (1#2) / (Site 7 * Site 7));
    Num (83143#10000) * Var 0 * (Num (1#4) / (Site 7 * Site 7) + Num (1#2) / (Site 12 * Site 12) - Num (1#4) / (Site 14 * Site 14) - Num (1#8) / (Site 15 * Site 15) + Num (1#4) / (Site 16 * Site 16) + Num (1#4) / (Site 17 * Site 17) + Num (1#32) / (Site 10 * Site 10));
    Num (83143#10000) * Var 0 * (Num (1#4) / (Site 7 * Site 7) + Num (1#2) / (Site 12 * Site 12) - Num (1#4) / (Site 14 * Site 14) - Num (1#8) / (Site 15 * Site 15) + Num (1#4) / (Site 16 * Site 16) + Num (1#4) / (Site 17 * Site 17) + Num (1#32) / (Site 11 * Site 11));
    Num (83143#10000) * Var 0 * (Num (-1#16) / (Site 4 * Site 4) - Num (1#16) / (Site 6 * Site 6) + Num (1#2) / (Site 7 * Site 7) + Num (1#2) / (Site 12 * Site 12) - Num (1#2) / (Site 14 * Site 14) - Num (1#8) / (Site 15 * Site 15) + Num (1#64) / (Site 10 * Site 10) + Num (1#64) / (Site 11 * Site 11) + Num (1#2) / (Site 16 * Site 16) + Num (1#2) / (Site 17 * Site 17));
    Num (83143#10000) * Var 0 * (Num (-1#32) / (Site 4 * Site 4) - Num (1#32) / (Site 6 * Site 6) + Num (1#4) / (Site 7 * Site 7) + Num (1#4) / (Site 12 * Site 12) - Num (1#4) / (Site 14 * Site 14) + Num (1#16) / (Site 15 * Site 15) - Num (1#128) / (Site 10 * Site 10) - Num (1#128) / (Site 11 * Site 11) - Num (1#4) / (Site 16 * Site 16) + Num (1#4) / (Site 17 * Site 17));
    Num (-83143#10000) * Var 0 * Num (1#4) / (Site 7 * Site 7) + (Num (-6799#20) + (Var 1 - Num (1#1)) * Num (5753#500000))];
    [Num (-83143#10000) * Var 0 * Num (1#2) / (Site 7 * Site 7) + (Num (-6799#10) + (Var 1 - Num (1#1)) * Num (5753#250000));
    Num (-83143#10000) * Var 0 * Num (1#4) / (Site 7 * Site 7) + (Num (-94663#40) + (Var 1 - Num (1#1)) * Num (30857#1000000));
    Num (-83143#10000) * Var 0 * Num (1#4) / (Site 7 * Site 7) + (Num (-94663#40) + (Var 1 - Num (1#1)) * Num (30857#1000000));
    Num (-83143#10000) * Var 0 * Num (1#2) / (Site 7 * Site 7) + (Num (-6799#20) + (Var 1 - Num (1#1)) * Num (5753#500000)) * Num (2#1);
    Num (-83143#10000) * Var 0 * Num (1#4) / (Site 7 * Site 7) + (Num (-6799#20) + (Var 1 - Num (1#1)) * Num (5753#500000));
    Num (83143#10000) * Var 0 * Num (1#4) / (Site 7 * Site 7) + (Num (51777#200) - Var 0 * Num (45606123#25000000) + (Var 1 - Num (1#1)) * Num (810649133#50000000000)) * Num (2#1)]];
    [[Num (83143#10000) * Var 0 * (Num (1#2) / (Site 7 * Site 7));
    Num (83143#10000) * Var 0 * (Num (1#4) / (Site 7 * Site 7));
    Num (83143#10000) * Var 0 * (Num (1#4) / (Site 7 * Site 7));
    Num (83143#10000) * Var 0 * (Num (1#2) / (Site 7 * Site 7));
    Num (83143#10000) * Var 0 * (Num (1#4) / (Site 7 * Site 7));
    Num (-83143#10000) * Var 0 * Num (1#4) / (Site 7 * Site 7) + (Num (-6799#20) + (Var 1 - Num (1#1)) * Num (5753#500000))];
    [Num (83143#10000) * Var 0 * (Num (1#4) / (Site 7 * Site 7));
    Num (83143#10000) * Var 0 * (Num (1#8) / (Site 7 * Site 7) + Num (1#2) / (Site 12 * Site 12) - Num (1#8) / (Site 14 * Site 14) - Num (1#8) / (Site 15 * Site 15) + Num (1#8) / (Site 16 * Site 16) + Num (1#8) / (Site 17 * Site 17) + Num (1#16) / (Site 10 * Site 10));
    Num (83143#10000) * Var 0 * (Num (1#8) / (Site 7 * Site 7) + Num (1#2) / (Site 12 * Site 12) - Num (1#8) / (Site 14 * Site 14) - Num (1#8) / (Site 15 * Site 15) + Num (1#8) / (Site 16 * Site 16) + Num (1#8) / (Site 17 * Site 17));
    Num (83143#10000) * Var 0 * (Num (1#4) / (Site 7 * Site 7) + Num (1#2) / (Site 12 * Site 12) - Num (1#4) / (Site 14 * Site 14) - Num (1#8) / (Site 15 * Site 15) + Num (1#4) / (Site 16 * Site 16) + Num (1#4) / (Site 17 * Site 17) + Num (1#32) / (Site 10 * Site 10));
    Num (83143#10000) * Var 0 * (Num (1#8) / (Site 7 * Site 7) + Num (1#4) / (Site 12 * Site 12) - Num (1#8) / (Site 14 * Site 14) + Num (1#16) / (Site 15 * Site 15) - Num (1#8) / (Site 16 * Site 16) + Num (1#8) / (Site 17 * Site 17) - Num (1#64) / (Site 10 * Site 10));
    Num (-83143#10000) * Var 0 * Num (1#8) / (Site 7 * Site 7) + (Num (-7322#5) + (Var 1 - Num (1#1)) * Num (523#31250))];
    [Num (83143#10000) * Var 0 * (Num (1#4) / (Site 7 * Site 7));
    Num (83143#10000) * Var 0 * (Num (1#8) / (Site 7 * Site 7) + Num (1#2) / (Site 12 * Site 12) - Num (1#8) / (Site 14 * Site 14) - Num (1#8) / (Site 15 * Site 15) + Num (1#8) / (Site 16 * Site 16) + Num (1#8) / (Site 17 * Site 17));
    Num (83143#10000) * Var 0 * (Num (1#8) / (Site 7 * Site 7) + Num (1#2) / (Site 12 * Site 12) - Num (1#8) / (Site 14 * Site 14) - Num (1#8) / (Site 15 * Site 15) + Num (1#8) / (Site 16 * Site 16) + Num (1#8) / (Site 17 * Site 17) + Num (1#16) / (Site 11 * Site 11));
    Num (83143#10000) * Var 0 * (Num (1#4) / (Site 7 * Site 7) + Num (1#2) / (Site 12 * Site 12) - Num (1#4) / (Site 14 * Site 14) - Num (1#8) / (Site 15 * Site 15) + Num (1#4) / (Site 16 * Site 16) + Num (1#4) / (Site 17 * Site 17) + Num (1#32) / (Site 11 * Site 11));
    Num (83143#10000) * Var 0 * (Num (1#8) / (Site 7 * Site 7) + Num (1#4) / (Site 12 * Site 12) - Num (1#8) / (Site 14 * Site 14) + Num (1#16) / (Site 15 * Site 15) - Num (1#8) / (Site 16 * Site 16) + Num (1#8) / (Site 17 * Site 17) - Num (1#64) / (Site 11 * Site 11));
    Num (-83143#10000) * Var 0 * Num (1#8) / (Site 7 * Site 7) + (Num (-36087#40) + (Var 1 - Num (1#1)) * Num (14121#1000000))];
    [Num (83143#10000) * Var 0 * (Num (1#2) / (Site 7 * Site 7));
    Num (83143#10000) * Var 0 * (Num (1#4) / (Site 7 * Site 7) + Num (1#2) / (Site 12 * Site 12) - Num (1#4) / (Site 14 * Site 14) - Num (1#8) / (Site 15 * Site 15) + Num (1#4) / (Site 16 * Site 16) + Num (1#4) / (Site 17 * Site 17) + Num (1#32) / (Site 10 * Site 10));
    Num (83143#10000) * Var 0 * (Num (1#4) / (Site 7 * Site 7) + Num (1#2) / (Site 12 * Site 12) - Num (1#4) / (Site 14 * Site 14) - Num (1#8) / (Site 15 * Site 15) + Num (1#4) / (Site 16 * Site 16) + Num (1#4) / (Site 17 * Site 17) + Num (1#32) / (Site 11 * Site 11));
    Num (83143#10000) * Var 0 * (Num (-1#16) / (Site 4 * Site 4) - Num (1#16) / (Site 6 * Site 6) + Num (1#2) / (Site 7 * Site 7) + Num (1#2) / (Site 12 * Site 12) - Num (1#2) / (Site 14 * Site 14) - Num (1#8) / (Site 15 * Site 15) + Num (1#64) / (Site 10 * Site 10) + Num (1#64) / (Site 11 * Site 11) + Num (1#2) / (Site 16 * Site 16) + Num (1#2) / (Site 17 * Site 17));
    Num (83143#10000) * Var 0 * (Num (-1#32) / (Site 4 * Site 4) - Num (1#32) / (Site 6 * Site 6) + Num (1#4) / (Site 7 * Site 7) + Num (1#4) / (Site 12 * Site 12) - Num (1#4) / (Site 14 * Site 14) + Num (1#16) / (Site 15 * Site 15) - Num (1#128) / (Site 10 * Site 10) - Num (1#128) / (Site 11 * Site 11) - Num (1#4) / (Site 16 * Site 16) + Num (1#4) / (Site 17 * Site 17));
    Num (-83143#10000) * Var 0 * Num (1#4) / (Site 7 * Site 7) + (Num (-6799#20) + (Var 1 - Num (1#1)) * Num (5753#500000))];
    [Num (83143#10000) * Var 0 * (Num (1#4) / (Site 7 * Site 7));
    Num (83143#10000) * Var 0 * (Num (1#8) / (Site 7 * Site 7) + Num (1#4) / (Site 12 * Site 12) - Num (1#8) / (Site 14 * Site 14) + Num (1#16) / (Site 15 * Site 15) - Num (1#8) / (Site 16 * Site 16) + Num (1#8) / (Site 17 * Site 17) - Num (1#64) / (Site 10 * Site 10));
    Num (83143#10000) * Var 0 * (Num (1#8) / (Site 7 * Site 7) + Num (1#4) / (Site 12 * Site 12) - Num (1#8) / (Site 14 * Site 14) + Num (1#16) / (Site 15 * Site 15) - Num (1#8) / (Site 16 * Site 16) + Num (1#8) / (Site 17 * Site 17) - Num (1#64) / (Site 11 * Site 11));
    Num (83143#10000) * Var 0 * (Num (-1#32) / (Site 4 * Site 4) - Num (1#32) / (Site 6 * Site 6) + Num (1#4) / (Site 7 * Site 7) + Num (1#4) / (Site 12 * Site 12) - Num (1#4) / (Site 14 * Site 14) + Num (1#16) / (Site 15 * Site 15) - Num (1#128) / (Site 10 * Site 10) - Num (1#128) / (Site 11 * Site 11) - Num (1#4) / (Site 16 * Site 16) + Num (1#4) / (Site 17 * Site 17));
    Num (83143#10000) * Var 0 * (Num (-1#64) / (Site 4 * Site 4) - Num (1#64) / (Site 6 * Site 6) + Num (1#8) / (Site 7 * Site 7) + Num (1#8) / (Site 12 * Site 12) - Num (1#8) / (Site 14 * Site 14) - Num (1#32) / (Site 15 * Site 15) + Num (1#256) / (Site 10 * Site 10) + Num (1#256) / (Site 11 * Site 11) + Num (1#1) / (Site 1 * Site 1) - Num (1#1) / (Site 2 * Site 2) + Num (1#8) / (Site 16 * Site 16) + Num (1#8) / (Site 17 * Site 17) - Num (1#1) / (Site 18 * Site 18));
    Num (83143#10000) * Var 0 * (Num (-1#8) / (Site 7 * Site 7) + Num (1#1) / (Site 1 * Site 1)) + Num (2#1) * (Num (8891#160) + (Var 1 - Num (1#1)) * Num (8891#4000000))];
    [Num (-83143#10000) * Var 0 * Num (1#4) / (Site 7 * Site 7) + (Num (-6799#20) + (Var 1 - Num (1#1)) * Num (5753#500000));
    Num (-83143#10000) * Var 0 * Num (1#8) / (Site 7 * Site 7) + (Num (-7322#5) + (Var 1 - Num (1#1)) * Num (523#31250));
    Num (-83143#10000) * Var 0 * Num (1#8) / (Site 7 * Site 7) + (Num (-36087#40) + (Var 1 - Num (1#1)) * Num (14121#1000000));
    Num (-83143#10000) * Var 0 * Num (1#4) / (Site 7 * Site 7) + (Num (-6799#20) + (Var 1 - Num (1#1)) * Num (5753#500000));
    Num (83143#10000) * Var 0 * (Num (-1#8) / (Site 7 * Site 7) + Num (1#1) / (Site 1 * Site 1)) + Num (2#1) * (Num (8891#160) + (Var 1 - Num (1#1)) * Num (8891#4000000));
    Num (83143#10000) * Var 0 * (Num (1#8) / (Site 7 * Site 7) + Num (1#1) / (Site 1 * Site 1)) + Num (2#1) * (Num (51777#400) - Var 0 * Num (45606123#50000000) + (Var 1 - Num (1#1)) * Num (810649133#100000000000))]];
    [[Num (83143#10000) * Var 0 * (Num (1#2) / (Site 5 * Site 5) - Num (1#2) / (Site 7 * Site 7)) + Num (2#1) * (Num (6799#20) + (Var 1 - Num (1#1)) * Num (-5753#500000));
    Num (-83143#10000) * Var 0 * Num (1#4) / (Site 7 * Site 7) + (Num (-6799#10) + (Var 1 - Num (1#1)) * Num (5753#250000));
    Num (-83143#10000) * Var 0 * Num (1#4) / (Site 7 * Site 7) + (Num (-6799#10) + (Var 1 - Num (1#1)) * Num (5753#250000));
    Num (-83143#10000) * Var 0 * Num (1#2) / (Site 7 * Site 7) + (Num (-6799#10) + (Var 1 - Num (1#1)) * Num (5753#250000));
    Num (-83143#10000) * Var 0 * Num (1#4) / (Site 7 * Site 7) + (Num (-6799#20) + (Var 1 - Num (1#1)) * Num (5753#500000));
    Num (83143#10000) * Var 0 * (Num (-1#4) / (Site 5 * Site 5) + Num (1#4) / (Site 7 * Site 7)) + Num (2#1) * (Num (-202401#200) - Var 0 * Num (45606123#12500000) + (Var 1 - Num (1#1)) * Num (2105074133#25000000000))];
    [Num (-83143#10000) * Var 0 * Num (1#4) / (Site 7 * Site 7) + (Num (-6799#10) + (Var 1 - Num (1#1)) * Num (5753#250000));
    Num (-83143#10000) * Var 0 * Num (1#8) / (Site 7 * Site 7) + (Num (-7322#5) + (Var 1 - Num (1#1)) * Num (523#31250)) * Num (2#1);
    Num (-83143#10000) * Var 0 * Num (1#8) / (Site 7 * Site 7) + (Num (-139641#40) + (Var 1 - Num (1#1)) * Num (36087#1000000));
    Num (-83143#10000) * Var 0 * Num (1#4) / (Site 7 * Site 7) + (Num (-94663#40) + (Var 1 - Num (1#1)) * Num (30857#1000000));
    Num (-83143#10000) * Var 0 * Num (1#8) / (Site 7 * Site 7) + (Num (-7322#5) + (Var 1 - Num (1#1)) * Num (523#31250));
    Num (83143#10000) * Var 0 * Num (1#8) / (Site 7 * Site 7) + (Num (-769333#400) - Var 0 * Num (45606123#50000000) + (Var 1 - Num (1#1)) * Num (2013549133#100000000000)) * Num (2#1)];
    [Num (-83143#10000) * Var 0 * Num (1#4) / (Site 7 * Site 7) + (Num (-6799#10) + (Var 1 - Num (1#1)) * Num (5753#250000));
    Num (-83143#10000) * Var 0 * Num (1#8) / (Site 7 * Site 7) + (Num (-139641#40) + (Var 1 - Num (1#1)) * Num (36087#1000000));
    Num (-83143#10000) * Var 0 * Num (1#8) / (Site 7 * Site 7) + (Num (-7322#5) + (Var 1 - Num (1#1)) * Num (523#31250)) * Num (2#1);
    Num (-83143#10000) * Var 0 * Num (1#4) / (Site 7 * Site 7) + (Num (-94663#40) + (Var 1 - Num (1#1)) * Num (30857#1000000));
    Num (-83143#10000) * Var 0 * Num (1#8) / (Site 7 * Site 7) + (Num (-36087#40) + (Var 1 - Num (1#1)) * Num (14121#1000000));
    Num (83143#10000) * Var 0 * Num (1#8) / (Site 7 * Site 7) + (Num (-769333#400) - Var 0 * Num (45606123#50000000) + (Var 1 - Num (1#1)) * Num (2013549133#100000000000)) * Num (2#1)];
    [Num (-83143#10000) * Var 0 * Num (1#2) / (Site 7 * Site 7) + (Num (-6799#10) + (Var 1 - Num (1#1)) * Num (5753#250000));
    Num (-83143#10000) * Var 0 * Num (1#4) / (Site 7 * Site 7) + (Num (-94663#40) + (Var 1 - Num (1#1)) * Num (30857#1000000));
    Num (-83143#10000) * Var 0 * Num (1#4) / (Site 7 * Site 7) + (Num (-94663#40) + (Var 1 - Num (1#1)) * Num (30857#1000000));
    Num (-83143#10000) * Var 0 * Num (1#2) / (Site 7 * Site 7) + (Num (-6799#20) + (Var 1 - Num (1#1)) * Num (5753#500000)) * Num (2#1);
    Num (-83143#10000) * Var 0 * Num (1#4) / (Site 7 * Site 7) + (Num (-6799#20) + (Var 1 - Num (1#1)) * Num (5753#500000));
    Num (83143#10000) * Var 0 * Num (1#4) / (Site 7 * Site 7) + (Num (51777#200) - Var 0 * Num (45606123#25000000) + (Var 1 - Num (1#1)) * Num (810649133#50000000000)) * Num (2#1)];
    [Num (-83143#10000) * Var 0 * Num (1#4) / (Site 7 * Site 7) + (Num (-6799#20) + (Var 1 - Num (1#1)) * Num (5753#500000));
    Num (-83143#10000) * Var 0 * Num (1#8) / (Site 7 * Site 7) + (Num (-7322#5) + (Var 1 - Num (1#1)) * Num (523#31250));
    Num (-83143#10000) * Var 0 * Num (1#8) / (Site 7 * Site 7) + (Num (-36087#40) + (Var 1 - Num (1#1)) * Num (14121#1000000));
    Num (-83143#10000) * Var 0 * Num (1#4) / (Site 7 * Site 7) + (Num (-6799#20) + (Var 1 - Num (1#1)) * Num (5753#500000));
    Num (83143#10000) * Var 0 * (Num (-1#8) / (Site 7 * Site 7) + Num (1#1) / (Site 1 * Site 1)) + Num (2#1) * (Num (8891#160) + (Var 1 - Num (1#1)) * Num (8891#4000000));
    Num (83143#10000) * Var 0 * (Num (1#8) / (Site 7 * Site 7) + Num (1#1) / (Site 1 * Site 1)) + Num (2#1) * (Num (51777#400) - Var 0 * Num (45606123#50000000) + (Var 1 - Num (1#1)) * Num (810649133#100000000000))];
    [Num (83143#10000) * Var 0 * (Num (-1#4) / (Site 5 * Site 5) + Num (1#4) / (Site 7 * Site 7)) + Num (2#1) * (Num (-202401#200) - Var 0 * Num (45606123#12500000) + (Var 1 - Num (1#1)) * Num (2105074133#25000000000));
    Num (83143#10000) * Var 0 * Num (1#8) / (Site 7 * Site 7) + (Num (-769333#400) - Var 0 * Num (45606123#50000000) + (Var 1 - Num (1#1)) * Num (2013549133#100000000000)) * Num (2#1);
    Num (83143#10000) * Var 0 * Num (1#8) / (Site 7 * Site 7) + (Num (-769333#400) - Var 0 * Num (45606123#50000000) + (Var 1 - Num (1#1)) * Num (2013549133#100000000000)) * Num (2#1);
    Num (83143#10000) * Var 0 * Num (1#4) / (Site 7 * Site 7) + (Num (51777#200) - Var 0 * Num (45606123#25000000) + (Var 1 - Num (1#1)) * Num (810649133#50000000000)) * Num (2#1);
    Num (83143#10000) * Var 0 * (Num (1#8) / (Site 7 * Site 7) + Num (1#1) / (Site 1 * Site 1)) + Num (2#1) * (Num (51777#400) - Var 0 * Num (45606123#50000000) + (Var 1 - Num (1#1)) * Num (810649133#100000000000));
    Num (83143#10000) * Var 0 * (Num (-1#8) / (Site 7 * Site 7) + Num (1#8) / (Site 5 * Site 5) + Num (1#1) / (Site 1 * Site 1) - Num (1#8) / (Site 9 * Site 9) - Num (1#8) / (Site 8 * Site 8)) + Num (6#1) * (Num (59099#100) - Var 0 * Num (-45606123#25000000) + (Var 1 - Num (1#1)) * Num (-2248899133#50000000000))]]].
(** sources/clinopyroxene.c 3362: macro fillD3GDR2DS *)
Definition oCpx_d3gdr2ds :=
  [[[Num (0#1);
    Num (-83143#10000) * Var 0 * (Num (-1#2) / (Site 5 * Site 5) + Num (1#2) / (Site 7 * Site 7)) + (Num (-6799#20) + (Var 1 - Num (1#1)) * Num (5753#500000)) * Num (2#1)];
    [Num (0#1);
    Num (-83143#10000) * Var 0 * Num (1#4) / (Site 7 * Site 7) + (Num (51777#10) + (Var 1 - Num (1#1)) * Num (-10983#250000))];
    [Num (0#1);
    Num (-83143#10000) * Var 0 * Num (1#4) / (Site 7 * Site 7) + (Num (51777#10) + (Var 1 - Num (1#1)) * Num (-10983#250000))];
    [Num (0#1);
    Num (-83143#10000) * Var 0 * Num (1#2) / (Site 7 * Site 7) + (Num (51777#10) + (Var 1 - Num (1#1)) * Num (-10983#250000))];
    [Num (0#1);
    Num (-83143#10000) * Var 0 * Num (1#4) / (Site 7 * Site 7) + (Num (51777#20) + (Var 1 - Num (1#1)) * Num (-10983#500000))];
    [Num (0#1);
    Num (-83143#10000) * Var 0 * (Num (1#4) / (Site 5 * Site 5) - Num (1#4) / (Site 7 * Site 7)) + (Num (213907#20) + (Var 1 - Num (1#1)) * Num (-9937#100000))]];
    [[Num (0#1);
    Num (-83143#10000) * Var 0 * Num (1#4) / (Site 7 * Site 7) + (Num (51777#10) + (Var 1 - Num (1#1)) * Num (-10983#250000))];
    [Num (-83143#10000) * Var 0 * Num (1#8) / (Site 10 * Site 10);
    Num (-83143#10000) * Var 0 * Num (1#8) / (Site 7 * Site 7) + (Num (7322#5) + (Var 1 - Num (1#1)) * Num (-523#31250)) * Num (2#1)];
    [Num (0#1);
    Num (-83143#10000) * Var 0 * Num (1#8) / (Site 7 * Site 7) + (Num (94663#40) + (Var 1 - Num (1#1)) * Num (-30857#1000000))];
    [Num (-83143#10000) * Var 0 * Num (1#16) / (Site 10 * Site 10);
    Num (-83143#10000) * Var 0 * Num (1#4) / (Site 7 * Site 7) + (Num (139641#40) + (Var 1 - Num (1#1)) * Num (-36087#1000000))];
    [Num (83143#10000) * Var 0 * Num (1#32) / (Site 10 * Site 10);
    Num (-83143#10000) * Var 0 * Num (1#8) / (Site 7 * Site 7) + (Num (7322#5) + (Var 1 - Num (1#1)) * Num (-523#31250))];
    [Num (0#1);
    Num (83143#10000) * Var 0 * Num (1#8) / (Site 7 * Site 7) + (Num (30857#25) - Var 0 * Num (45606123#50000000) + (Var 1 - Num (1#1)) * Num (-2928800867#100000000000))]];
    [[Num (0#1);
    Num (-83143#10000) * Var 0 * Num (1#4) / (Site 7 * Site 7) + (Num (51777#10) + (Var 1 - Num (1#1)) * Num (-10983#250000))];
    [Num (0#1);
    Num (-83143#10000) * Var 0 * Num (1#8) / (Site 7 * Site 7) + (Num (94663#40) + (Var 1 - Num (1#1)) * Num (-30857#1000000))];
    [Num (83143#10000) * Var 0 * Num (1#8) / (Site 11 * Site 11);
    Num (-83143#10000) * Var 0 * Num (1#8) / (Site 7 * Site 7) + (Num (7322#5) + (Var 1 - Num (1#1)) * Num (-523#31250)) * Num (2#1)];
    [Num (83143#10000) * Var 0 * Num (1#16) / (Site 11 * Site 11);
    Num (-83143#10000) * Var 0 * Num (1#4) / (Site 7 * Site 7) + (Num (139641#40) + (Var 1 - Num (1#1)) * Num (-36087#1000000))];
    [Num (-83143#10000) * Var 0 * Num (1#32) / (Site 11 * Site 11);
    Num (-83143#10000) * Var 0 * Num (1#8) / (Site 7 * Site 7) + (Num (16213#8) + (Var 1 - Num (1#1)) * Num (-19351#1000000))];
    [Num (0#1);
    Num (83143#10000) * Var 0 * Num (1#8) / (Site 7 * Site 7) + (Num (30857#25) - Var 0 * Num (45606123#50000000) + (Var 1 - Num (1#1)) * Num (-2928800867#100000000000))]];
    [[Num (0#1);
    Num (-83143#10000) * Var 0 * Num (1#2) / (Site 7 * Site 7) + (Num (51777#10) + (Var 1 - Num (1#1)) * Num (-10983#250000))];
    [Num (-83143#10000) * Var 0 * Num (1#16) / (Site 10 * Site 10);
    Num (-83143#10000) * Var 0 * Num (1#4) / (Site 7 * Site 7) + (Num (139641#40) + (Var 1 - Num (1#1)) * Num (-36087#1000000))];
    [Num (83143#10000) * Var 0 * Num (1#16) / (Site 11 * Site 11);
    Num (-83143#10000) * Var 0 * Num (1#4) / (Site 7 * Site 7) + (Num (139641#40) + (Var 1 - Num (1#1)) * Num (-36087#1000000))];
    [Num (-83143#10000) * Var 0 * (Num (-1#8) / (Site 4 * Site 4) + Num (1#8) / (Site 6 * Site 6) + Num (1#32) / (Site 10 * Site 10) - Num (1#32) / (Site 11 * Site 11));
    Num (-83143#10000) * Var 0 * Num (1#2) / (Site 7 * Site 7) + (Num (51777#20) + (Var 1 - Num (1#1)) * Num (-10983#500000)) * Num (2#1)];
    [Num (-83143#10000) * Var 0 * (Num (-1#16) / (Site 4 * Site 4) + Num (1#16) / (Site 6 * Site 6) - Num (1#64) / (Site 10 * Site 10) + Num (1#64) / (Site 11 * Site 11));
    Num (-83143#10000) * Var 0 * Num (1#4) / (Site 7 * Site 7) + (Num (51777#20) + (Var 1 - Num (1#1)) * Num (-10983#500000))];
    [Num (0#1);
    Num (83143#10000) * Var 0 * Num (1#4) / (Site 7 * Site 7) + (Num (369761#100) - Var 0 * Num (45606123#25000000) + (Var 1 - Num (1#1)) * Num (-1725900867#50000000000))]];
    [[Num (0#1);
    Num (-83143#10000) * Var 0 * Num (1#4) / (Site 7 * Site 7) + (Num (51777#20) + (Var 1 - Num (1#1)) * Num (-10983#500000))];
    [Num (83143#10000) * Var 0 * Num (1#32) / (Site 10 * Site 10);
    Num (-83143#10000) * Var 0 * Num (1#8) / (Site 7 * Site 7) + (Num (7322#5) + (Var 1 - Num (1#1)) * Num (-523#31250))];
    [Num (-83143#10000) * Var 0 * Num (1#32) / (Site 11 * Site 11);
    Num (-83143#10000) * Var 0 * Num (1#8) / (Site 7 * Site 7) + (Num (16213#8) + (Var 1 - Num (1#1)) * Num (-19351#1000000))];
    [Num (-83143#10000) * Var 0 * (Num (-1#16) / (Site 4 * Site 4) + Num (1#16) / (Site 6 * Site 6) - Num (1#64) / (Site 10 * Site 10) + Num (1#64) / (Site 11 * Site 11));
    Num (-83143#10000) * Var 0 * Num (1#4) / (Site 7 * Site 7) + (Num (51777#20) + (Var 1 - Num (1#1)) * Num (-10983#500000))];
    [Num (-83143#10000) * Var 0 * (Num (-1#32) / (Site 4 * Site 4) + Num (1#32) / (Site 6 * Site 6) + Num (1#128) / (Site 10 * Site 10) - Num (1#128) / (Site 11 * Site 11));
    Num (-83143#10000) * Var 0 * Num (1#8) / (Site 7 * Site 7) + (Num (126043#160) + (Var 1 - Num (1#1)) * Num (-24581#4000000)) * Num (2#1)];
    [Num (0#1);
    Num (83143#10000) * Var 0 * Num (1#8) / (Site 7 * Site 7) + (Num (369761#200) - Var 0 * Num (45606123#50000000) + (Var 1 - Num (1#1)) * Num (-1725900867#100000000000))]];
    [[Num (0#1);
    Num (-83143#10000) * Var 0 * (Num (1#4) / (Site 5 * Site 5) - Num (1#4) / (Site 7 * Site 7)) + (Num (213907#20) + (Var 1 - Num (1#1)) * Num (-9937#100000))];
    [Num (0#1);
    Num (83143#10000) * Var 0 * Num (1#8) / (Site 7 * Site 7) + (Num (30857#25) - Var 0 * Num (45606123#50000000) + (Var 1 - Num (1#1)) * Num (-2928800867#100000000000))];
    [Num (0#1);
    Num (83143#10000) * Var 0 * Num (1#8) / (Site 7 * Site 7) + (Num (30857#25) - Var 0 * Num (45606123#50000000) + (Var 1 - Num (1#1)) * Num (-2928800867#100000000000))];
    [Num (0#1);
    Num (83143#10000) * Var 0 * Num (1#4) / (Site 7 * Site 7) + (Num (369761#100) - Var 0 * Num (45606123#25000000) + (Var 1 - Num (1#1)) * Num (-1725900867#50000000000))];
    [Num (0#1);
    Num (83143#10000) * Var 0 * Num (1#8) / (Site 7 * Site 7) + (Num (369761#200) - Var 0 * Num (45606123#50000000) + (Var 1 - Num (1#1)) * Num (-1725900867#100000000000))];
    [Num (0#1);
    Num (-83143#10000) * Var 0 * (Num (1#8) / (Site 7 * Site 7) - Num (1#8) / (Site 5 * Site 5) - Num (1#8) / (Site 9 * Site 9) + Num (1#8) / (Site 8 * Site 8)) + (Num (-106169#25) - Var 0 * Num (-45606123#25000000) + (Var 1 - Num (1#1)) * Num (-627599133#50000000000)) * Num (2#1)]]].
(** sources/clinopyroxene.c 3400: macro fillD3GDR2DT *)
Definition oCpx_d3gdr2dt :=
  [[Num (83143#10000) * (Num (1#1) / Site 5 + Num (1#1) / Site 7);
    Num (83143#10000) * (Num (1#2) / Site 7);
    Num (83143#10000) * (Num (1#2) / Site 7);
    Num (83143#10000) * (Num (1#1) / Site 7);
    Num (83143#10000) * (Num (1#2) / Site 7);
    Num (-83143#10000) * (Num (1#2) / Site 5 + Num (1#2) / Site 7) - Num (-14522141#2500000) - Num (45606123#12500000) * Var 7 * Num (2#1)];
    [Num (83143#10000) * (Num (1#2) / Site 7);
    Num (83143#10000) * (Num (1#4) / Site 0 + Num (1#4) / Site 7 - Num (1#4) / Site 13 + Num (1#1) / Site 12 - Num (1#4) / Site 14 + Num (1#4) / Site 16 - Num (1#2) / Site 15 - Num (1#4) / Site 17 + Num (1#2) / Site 10);
    Num (83143#10000) * (Num (1#4) / Site 0 + Num (1#4) / Site 7 - Num (1#4) / Site 13 + Num (1#1) / Site 12 - Num (1#4) / Site 14 + Num (1#4) / Site 16 - Num (1#2) / Site 15 - Num (1#4) / Site 17);
    Num (83143#10000) * (Num (1#2) / Site 7 + Num (1#1) / Site 12 - Num (1#2) / Site 14 + Num (1#2) / Site 16 - Num (1#2) / Site 15 - Num (1#2) / Site 17 + Num (1#4) / Site 10);
    Num (83143#10000) * (Num (1#4) / Site 7 + Num (1#2) / Site 12 - Num (1#4) / Site 14 - Num (1#4) / Site 16 + Num (1#4) / Site 15 - Num (1#4) / Site 17 - Num (1#8) / Site 10);
    Num (-83143#40000) / Site 7 - Num (8880909#25000000) - Num (45606123#50000000) * Var 7 * Num (2#1) - Num (45606123#50000000) * Var 41];
    [Num (83143#10000) * (Num (1#2) / Site 7);
    Num (83143#10000) * (Num (1#4) / Site 0 + Num (1#4) / Site 7 - Num (1#4) / Site 13 + Num (1#1) / Site 12 - Num (1#4) / Site 14 + Num (1#4) / Site 16 - Num (1#2) / Site 15 - Num (1#4) / Site 17);
    Num (83143#10000) * (Num (1#4) / Site 0 + Num (1#4) / Site 7 - Num (1#4) / Site 13 + Num (1#1) / Site 12 - Num (1#4) / Site 14 + Num (1#4) / Site 16 - Num (1#2) / Site 15 - Num (1#4) / Site 17 + Num (1#2) / Site 11);
    Num (83143#10000) * (Num (1#2) / Site 7 + Num (1#1) / Site 12 - Num (1#2) / Site 14 + Num (1#2) / Site 16 - Num (1#2) / Site 15 - Num (1#2) / Site 17 + Num (1#4) / Site 11);
    Num (83143#10000) * (Num (1#4) / Site 7 + Num (1#2) / Site 12 - Num (1#4) / Site 14 - Num (1#4) / Site 16 + Num (1#4) / Site 15 - Num (1#4) / Site 17 - Num (1#8) / Site 11);
    Num (-83143#40000) / Site 7 - Num (8880909#25000000) - Num (45606123#50000000) * Var 7 * Num (2#1) - Num (45606123#50000000) * Var 41];
    [Num (83143#10000) * (Num (1#1) / Site 7);
    Num (83143#10000) * (Num (1#2) / Site 7 + Num (1#1) / Site 12 - Num (1#2) / Site 14 + Num (1#2) / Site 16 - Num (1#2) / Site 15 - Num (1#2) / Site 17 + Num (1#4) / Site 10);
    Num (83143#10000) * (Num (1#2) / Site 7 + Num (1#1) / Site 12 - Num (1#2) / Site 14 + Num (1#2) / Site 16 - Num (1#2) / Site 15 - Num (1#2) / Site 17 + Num (1#4) / Site 11);
    Num (83143#10000) * (Num (1#4) / Site 4 + Num (1#4) / Site 6 + Num (1#1) / Site 7 + Num (1#1) / Site 12 - Num (1#1) / Site 14 - Num (1#2) / Site 15 + Num (1#8) / Site 10 + Num (1#8) / Site 11 + Num (1#1) / Site 16 - Num (1#1) / Site 17);
    Num (83143#10000) * (Num (1#8) / Site 4 + Num (1#8) / Site 6 + Num (1#2) / Site 7 + Num (1#2) / Site 12 - Num (1#2) / Site 14 + Num (1#4) / Site 15 - Num (1#16) / Site 10 - Num (1#16) / Site 11 - Num (1#2) / Site 16 - Num (1#2) / Site 17);
    Num (-83143#20000) / Site 7 - Num (-2310691#12500000) - Num (45606123#25000000) * Var 7 * Num (2#1) - Num (45606123#25000000) * Var 41];
    [Num (83143#10000) * (Num (1#2) / Site 7);
    Num (83143#10000) * (Num (1#4) / Site 7 + Num (1#2) / Site 12 - Num (1#4) / Site 14 - Num (1#4) / Site 16 + Num (1#4) / Site 15 - Num (1#4) / Site 17 - Num (1#8) / Site 10);
    Num (83143#10000) * (Num (1#4) / Site 7 + Num (1#2) / Site 12 - Num (1#4) / Site 14 - Num (1#4) / Site 16 + Num (1#4) / Site 15 - Num (1#4) / Site 17 - Num (1#8) / Site 11);
    Num (83143#10000) * (Num (1#8) / Site 4 + Num (1#8) / Site 6 + Num (1#2) / Site 7 + Num (1#2) / Site 12 - Num (1#2) / Site 14 + Num (1#4) / Site 15 - Num (1#16) / Site 10 - Num (1#16) / Site 11 - Num (1#2) / Site 16 - Num (1#2) / Site 17);
    Num (83143#10000) * (Num (1#16) / Site 4 + Num (1#16) / Site 6 + Num (1#4) / Site 7 + Num (1#4) / Site 12 - Num (1#4) / Site 14 - Num (1#8) / Site 15 + Num (1#32) / Site 10 + Num (1#32) / Site 11 + Num (1#1) / Site 1 + Num (1#1) / Site 2 + Num (1#4) / Site 16 - Num (1#4) / Site 17 - Num (1#1) / Site 18);
    Num (83143#10000) * (Num (-1#4) / Site 7 + Num (1#1) / Site 1) - Num (-2310691#25000000) - Num (45606123#50000000) * Var 7 * Num (2#1) - Num (45606123#50000000) * Var 41];
    [Num (-83143#10000) * (Num (1#2) / Site 5 + Num (1#2) / Site 7) - Num (-14522141#2500000) - Num (45606123#12500000) * Var 7 * Num (2#1);
    Num (-83143#40000) / Site 7 - Num (8880909#25000000) - Num (45606123#50000000) * Var 7 * Num (2#1) - Num (45606123#50000000) * Var 41;
    Num (-83143#40000) / Site 7 - Num (8880909#25000000) - Num (45606123#50000000) * Var 7 * Num (2#1) - Num (45606123#50000000) * Var 41;
    Num (-83143#20000) / Site 7 - Num (-2310691#12500000) - Num (45606123#25000000) * Var 7 * Num (2#1) - Num (45606123#25000000) * Var 41;
    Num (83143#10000) * (Num (-1#4) / Site 7 + Num (1#1) / Site 1) - Num (-2310691#25000000) - Num (45606123#50000000) * Var 7 * Num (2#1) - Num (45606123#50000000) * Var 41;
    Num (83143#10000) * (Num (1#4) / Site 7 + Num (1#4) / Site 5 + Num (1#1) / Site 1 + Num (1#4) / Site 9 + Num (1#4) / Site 8) - Num (28998781#2500000) - Num (45606123#12500000) * Var 2 * Num (2#1) - Num (45606123#50000000) * Var 3 * Num (2#1) - Num (45606123#50000000) * Var 4 * Num (2#1) - Num (45606123#25000000) * Var 5 * Num (2#1) - Num (45606123#50000000) * Var 6 * Num (2#1) - Num (-45606123#25000000) * Var 7 * Num (6#1) - Num (-45606123#25000000) * Var 41 * Num (2#1)]].
(** sources/clinopyroxene.c 3420: macro fillD3GDR2DP *)
Definition oCpx_d3gdr2dp :=
  [[Num (-5753#500000) * Var 7 * Num (2#1) + Num (5753#500000) * Var 41 * Num (2#1);
    Num (5753#250000) * Var 7 + Num (-10983#250000) * Var 41;
    Num (5753#250000) * Var 7 + Num (-10983#250000) * Var 41;
    Num (5753#250000) * Var 7 + Num (-10983#250000) * Var 41;
    Num (5753#500000) * Var 7 + Num (-10983#500000) * Var 41;
    Num (-431049#5000000) + Num (-5753#500000) * Var 2 * Num (2#1) + Num (5753#250000) * Var 3 + Num (5753#250000) * Var 4 + Num (5753#250000) * Var 5 + Num (5753#500000) * Var 6 + Num (2105074133#25000000000) * Var 7 * Num (2#1) + Num (-9937#100000) * Var 41];
    [Num (5753#250000) * Var 7 + Num (-10983#250000) * Var 41;
    Num (523#31250) * Var 7 * Num (2#1) + Num (-523#31250) * Var 41 * Num (2#1);
    Num (36087#1000000) * Var 7 + Num (-30857#1000000) * Var 41;
    Num (30857#1000000) * Var 7 + Num (-36087#1000000) * Var 41;
    Num (523#31250) * Var 7 + Num (-523#31250) * Var 41;
    Num (-1435929#20000000) + Num (5753#250000) * Var 2 + Num (523#31250) * Var 3 * Num (2#1) + Num (36087#1000000) * Var 4 + Num (30857#1000000) * Var 5 + Num (523#31250) * Var 6 + Num (2013549133#100000000000) * Var 7 * Num (2#1) + Num (-2928800867#100000000000) * Var 41];
    [Num (5753#250000) * Var 7 + Num (-10983#250000) * Var 41;
    Num (36087#1000000) * Var 7 + Num (-30857#1000000) * Var 41;
    Num (523#31250) * Var 7 * Num (2#1) + Num (-523#31250) * Var 41 * Num (2#1);
    Num (30857#1000000) * Var 7 + Num (-36087#1000000) * Var 41;
    Num (14121#1000000) * Var 7 + Num (-19351#1000000) * Var 41;
    Num (-1435929#20000000) + Num (5753#250000) * Var 2 + Num (36087#1000000) * Var 3 + Num (523#31250) * Var 4 * Num (2#1) + Num (30857#1000000) * Var 5 + Num (14121#1000000) * Var 6 + Num (2013549133#100000000000) * Var 7 * Num (2#1) + Num (-2928800867#100000000000) * Var 41];
    [Num (5753#250000) * Var 7 + Num (-10983#250000) * Var 41;
    Num (30857#1000000) * Var 7 + Num (-36087#1000000) * Var 41;
    Num (30857#1000000) * Var 7 + Num (-36087#1000000) * Var 41;
    Num (5753#500000) * Var 7 * Num (2#1) + Num (-10983#500000) * Var 41 * Num (2#1);
    Num (5753#500000) * Var 7 + Num (-10983#500000) * Var 41;
    Num (-713829#10000000) + Num (5753#250000) * Var 2 + Num (30857#1000000) * Var 3 + Num (30857#1000000) * Var 4 + Num (5753#500000) * Var 5 * Num (2#1) + Num (5753#500000) * Var 6 + Num (810649133#50000000000) * Var 7 * Num (2#1) + Num (-1725900867#50000000000) * Var 41];
    [Num (5753#500000) * Var 7 + Num (-10983#500000) * Var 41;
    Num (523#31250) * Var 7 + Num (-523#31250) * Var 41;
    Num (14121#1000000) * Var 7 + Num (-19351#1000000) * Var 41;
    Num (5753#500000) * Var 7 + Num (-10983#500000) * Var 41;
    Num (8891#4000000) * Var 7 * Num (2#1) + Num (-24581#4000000) * Var 41 * Num (2#1);
    Num (-713829#20000000) + Num (5753#500000) * Var 2 + Num (523#31250) * Var 3 + Num (14121#1000000) * Var 4 + Num (5753#500000) * Var 5 + Num (8891#4000000) * Var 6 * Num (2#1) + Num (810649133#100000000000) * Var 7 * Num (2#1) + Num (-1725900867#100000000000) * Var 41];
    [Num (-431049#5000000) + Num (-5753#500000) * Var 2 * Num (2#1) + Num (5753#250000) * Var 3 + Num (5753#250000) * Var 4 + Num (5753#250000) * Var 5 + Num (5753#500000) * Var 6 + Num (2105074133#25000000000) * Var 7 * Num (2#1) + Num (-9937#100000) * Var 41;
    Num (-1435929#20000000) + Num (5753#250000) * Var 2 + Num (523#31250) * Var 3 * Num (2#1) + Num (36087#1000000) * Var 4 + Num (30857#1000000) * Var 5 + Num (523#31250) * Var 6 + Num (2013549133#100000000000) * Var 7 * Num (2#1) + Num (-2928800867#100000000000) * Var 41;
    Num (-1435929#20000000) + Num (5753#250000) * Var 2 + Num (36087#1000000) * Var 3 + Num (523#31250) * Var 4 * Num (2#1) + Num (30857#1000000) * Var 5 + Num (14121#1000000) * Var 6 + Num (2013549133#100000000000) * Var 7 * Num (2#1) + Num (-2928800867#100000000000) * Var 41;
    Num (-713829#10000000) + Num (5753#250000) * Var 2 + Num (30857#1000000) * Var 3 + Num (30857#1000000) * Var 4 + Num (5753#500000) * Var 5 * Num (2#1) + Num (5753#500000) * Var 6 + Num (810649133#50000000000) * Var 7 * Num (2#1) + Num (-1725900867#50000000000) * Var 41;
    Num (-713829#20000000) + Num (5753#500000) * Var 2 + Num (523#31250) * Var 3 + Num (14121#1000000) * Var 4 + Num (5753#500000) * Var 5 + Num (8891#4000000) * Var 6 * Num (2#1) + Num (810649133#100000000000) * Var 7 * Num (2#1) + Num (-1725900867#100000000000) * Var 41;
    Num (2312144133#25000000000) + Num (2105074133#25000000000) * Var 2 * Num (2#1) + Num (2013549133#100000000000) * Var 3 * Num (2#1) + Num (2013549133#100000000000) * Var 4 * Num (2#1) + Num (810649133#50000000000) * Var 5 * Num (2#1) + Num (810649133#100000000000) * Var 6 * Num (2#1) + Num (-2248899133#50000000000) * Var 7 * Num (6#1) + Num (-627599133#50000000000) * Var 41 * Num (2#1)]].
(** sources/clinopyroxene.c 3440: macro fillD3GDRDS2 *)
Definition oCpx_d3gdrds2 :=
  [[[Num (0#1);
    Num (0#1)];
    [Num (0#1);
    Num (-83143#10000) * Var 0 * (Num (1#4) / (Site 5 * Site 5) - Num (1#4) / (Site 7 * Site 7)) + (Num (6799#40) + (Var 1 - Num (1#1)) * Num (-5753#1000000)) * Num (2#1)]];
    [[Num (-83143#10000) * Var 0 * Num (1#16) / (Site 10 * Site 10);
    Num (0#1)];
    [Num (0#1);
    Num (83143#10000) * Var 0 * Num (1#8) / (Site 7 * Site 7) + (Num (-450303#80) + (Var 1 - Num (1#1)) * Num (20397#400000)) * Num (2#1)]];
    [[Num (-83143#10000) * Var 0 * Num (1#16) / (Site 11 * Site 11);
    Num (0#1)];
    [Num (0#1);
    Num (83143#10000) * Var 0 * Num (1#8) / (Site 7 * Site 7) + (Num (-450303#80) + (Var 1 - Num (1#1)) * Num (20397#400000)) * Num (2#1)]];
    [[Num (-83143#10000) * Var 0 * (Num (1#8) / (Site 4 * Site 4) + Num (1#8) / (Site 6 * Site 6) + Num (1#32) / (Site 10 * Site 10) + Num (1#32) / (Site 11 * Site 11));
    Num (0#1)];
    [Num (0#1);
    Num (83143#10000) * Var 0 * Num (1#4) / (Site 7 * Site 7) + (Num (-213907#40) + (Var 1 - Num (1#1)) * Num (9937#200000)) * Num (2#1)]];
    [[Num (-83143#10000) * Var 0 * (Num (1#16) / (Site 4 * Site 4) + Num (1#16) / (Site 6 * Site 6) - Num (1#64) / (Site 10 * Site 10) - Num (1#64) / (Site 11 * Site 11));
    Num (0#1)];
    [Num (0#1);
    Num (83143#10000) * Var 0 * Num (1#8) / (Site 7 * Site 7) + (Num (-213907#80) + (Var 1 - Num (1#1)) * Num (9937#400000)) * Num (2#1)]];
    [[Num (0#1);
    Num (0#1)];
    [Num (0#1);
    Num (-83143#10000) * Var 0 * (Num (1#8) / (Site 7 * Site 7) - Num (1#8) / (Site 5 * Site 5) + Num (1#8) / (Site 9 * Site 9) + Num (1#8) / (Site 8 * Site 8)) + (Num (-213907#20) + (Var 1 - Num (1#1)) * Num (9937#100000)) * Num (2#1)]]].
(** sources/clinopyroxene.c 3454: macro fillD3GDRDSDT *)
Definition oCpx_d3gdrdsdt :=
  [[Num (0#1);
    Num (-83143#10000) * (Num (1#2) / Site 5 + Num (1#2) / Site 7)];
    [Num (83143#40000) / Site 10;
    Num (-83143#40000) / Site 7 - Num (-13502291#25000000) - Num (45606123#50000000) * Var 7];
    [Num (-83143#40000) / Site 11;
    Num (-83143#40000) / Site 7 - Num (-13502291#25000000) - Num (45606123#50000000) * Var 7];
    [Num (83143#10000) * (Num (-1#4) / Site 4 + Num (1#4) / Site 6 + Num (1#8) / Site 10 - Num (1#8) / Site 11);
    Num (-83143#20000) / Site 7 - Num (-13502291#12500000) - Num (45606123#25000000) * Var 7];
    [Num (83143#10000) * (Num (-1#8) / Site 4 + Num (1#8) / Site 6 - Num (1#16) / Site 10 + Num (1#16) / Site 11);
    Num (-83143#40000) / Site 7 - Num (-13502291#25000000) - Num (45606123#50000000) * Var 7];
    [Num (0#1);
    Num (83143#10000) * (Num (1#4) / Site 7 + Num (1#4) / Site 5 - Num (1#4) / Site 9 + Num (1#4) / Site 8) - Num (14522141#5000000) - Num (45606123#50000000) * Var 3 - Num (45606123#50000000) * Var 4 - Num (45606123#25000000) * Var 5 - Num (45606123#50000000) * Var 6 - Num (-45606123#25000000) * Var 7 * Num (2#1)]].
(** sources/clinopyroxene.c 3462: macro fillD3GDRDSDP *)
Definition oCpx_d3gdrdsdp :=
  [[Num (0#1);
    Num (10983#125000) + Num (5753#500000) * Var 2 * Num (2#1) + Num (-10983#250000) * Var 3 + Num (-10983#250000) * Var 4 + Num (-10983#250000) * Var 5 + Num (-10983#500000) * Var 6 + Num (-9937#100000) * Var 7 + Num (-5753#1000000) * Var 41 * Num (2#1)];
    [Num (0#1);
    Num (175631#20000000) + Num (-10983#250000) * Var 2 + Num (-523#31250) * Var 3 * Num (2#1) + Num (-30857#1000000) * Var 4 + Num (-36087#1000000) * Var 5 + Num (-523#31250) * Var 6 + Num (-2928800867#100000000000) * Var 7 + Num (20397#400000) * Var 41 * Num (2#1)];
    [Num (0#1);
    Num (175631#20000000) + Num (-10983#250000) * Var 2 + Num (-30857#1000000) * Var 3 + Num (-523#31250) * Var 4 * Num (2#1) + Num (-36087#1000000) * Var 5 + Num (-19351#1000000) * Var 6 + Num (-2928800867#100000000000) * Var 7 + Num (20397#400000) * Var 41 * Num (2#1)];
    [Num (0#1);
    Num (91951#10000000) + Num (-10983#250000) * Var 2 + Num (-36087#1000000) * Var 3 + Num (-36087#1000000) * Var 4 + Num (-10983#500000) * Var 5 * Num (2#1) + Num (-10983#500000) * Var 6 + Num (-1725900867#50000000000) * Var 7 + Num (9937#200000) * Var 41 * Num (2#1)];
    [Num (0#1);
    Num (91951#20000000) + Num (-10983#500000) * Var 2 + Num (-523#31250) * Var 3 + Num (-19351#1000000) * Var 4 + Num (-10983#500000) * Var 5 + Num (-24581#4000000) * Var 6 * Num (2#1) + Num (-1725900867#100000000000) * Var 7 + Num (9937#400000) * Var 41 * Num (2#1)];
    [Num (0#1);
    Num (952344133#50000000000) + Num (-9937#100000) * Var 2 + Num (-2928800867#100000000000) * Var 3 + Num (-2928800867#100000000000) * Var 4 + Num (-1725900867#50000000000) * Var 5 + Num (-1725900867#100000000000) * Var 6 + Num (-627599133#50000000000) * Var 7 * Num (2#1) + Num (9937#100000) * Var 41 * Num (2#1)]].
(** sources/clinopyroxene.c 3470: macro fillD3GDS3 *)
Definition oCpx_d3gds3 :=
  [[[Num (-83143#10000) * Var 0 * (Num (1#8) / (Site 6 * Site 6) - Num (1#8) / (Site 4 * Site 4) + Num (1#32) / (Site 10 * Site 10) - Num (1#32) / (Site 11 * Site 11));
    Num (0#1)];
    [Num (0#1);
    Num (0#1)]];
    [[Num (0#1);
    Num (0#1)];
    [Num (0#1);
    Num (-83143#10000) * Var 0 * (Num (1#8) / (Site 7 * Site 7) - Num (1#8) / (Site 5 * Site 5) + Num (1#8) / (Site 8 * Site 8) - Num (1#8) / (Site 9 * Site 9))]]].
(** sources/clinopyroxene.c 3476: macro fillD3GDS2DT *)
Definition oCpx_d3gds2dt :=
  [[Num (83143#10000) * (Num (1#4) / Site 6 + Num (1#4) / Site 4 + Num (1#8) / Site 10 + Num (1#8) / Site 11);
    Num (0#1)];
    [Num (0#1);
    Num (83143#10000) * (Num (1#4) / Site 7 + Num (1#4) / Site 5 + Num (1#4) / Site 8 + Num (1#4) / Site 9)]].
(** sources/clinopyroxene.c 3480: macro fillD3GDS2DP *)
Definition oCpx_d3gds2dp :=
  [[Num (0#1);
    Num (0#1)];
    [Num (0#1);
    Num (-22489#125000) + Num (-5753#1000000) * Var 2 * Num (2#1) + Num (20397#400000) * Var 3 * Num (2#1) + Num (20397#400000) * Var 4 * Num (2#1) + Num (9937#200000) * Var 5 * Num (2#1) + Num (9937#400000) * Var 6 * Num (2#1) + Num (9937#100000) * Var 7 * Num (2#1)]].
(** sources/clinopyroxene.c 3484: macro fillD3GDSDT2 *)
Definition oCpx_d3gdsdt2 :=
  [Num (0#1);
    Num (0#1)].
(** sources/clinopyroxene.c 3487: macro fillD3GDSDTDP *)
Definition oCpx_d3gdsdtdp :=
  [Num (0#1);
    Num (0#1)].
(** sources/clinopyroxene.c 3490: macro fillD3GDSDP2 *)
Definition oCpx_d3gdsdp2 :=
  [Num (0#1);
    Num (0#1)].
(** sources/clinopyroxene.c 3493: macro fillD3GDRDT2 *)
Definition oCpx_d3gdrdt2 :=
  [Num (0#1);
    Num (0#1);
    Num (0#1);
    Num (0#1);
    Num (0#1);
    Num (0#1)].
(** sources/clinopyroxene.c 3498: macro fillD3GDRDTDP *)
Definition oCpx_d3gdrdtdp :=
  [Num (0#1);
    Num (0#1);
    Num (0#1);
    Num (0#1);
    Num (0#1);
    Num (0#1)].
(** sources/clinopyroxene.c 3503: macro fillD3GDRDP2 *)
Definition oCpx_d3gdrdp2 :=
  [Num (0#1);
    Num (0#1);
    Num (0#1);
    Num (0#1);
    Num (0#1);
    Num (0#1)].
(** sources/clinopyroxene.c 2764: macro D2GDT2 *)
Definition oCpx_D2GDT2 :=
  Num (0#1).
(** sources/clinopyroxene.c 2765: macro D2GDTDP *)
Definition oCpx_D2GDTDP :=
  Num (0#1).
(** sources/clinopyroxene.c 2766: macro D2GDP2 *)
Definition oCpx_D2GDP2 :=
  Num (0#1).
(** sources/clinopyroxene.c 3178: macro D3GDT3 *)
Definition oCpx_D3GDT3 :=
  Num (0#1).
(** sources/clinopyroxene.c 3179: macro D3GDT2DP *)
Definition oCpx_D3GDT2DP :=
  Num (0#1).
(** sources/clinopyroxene.c 3180: macro D3GDTDP2 *)
Definition oCpx_D3GDTDP2 :=
  Num (0#1).
(** sources/clinopyroxene.c 3181: macro D3GDP3 *)
Definition oCpx_D3GDP3 :=
  Num (0#1).
(** sources/clinopyroxene.c 1965: macro ENDMEMBERS *)
Definition oCpx_end :=
  (Num (1#1) - Var 2 - Var 3 - Var 4 - Var 5 - Var 6 / Num (2#1) - Var 7) * Var 60 + Var 7 * Var 61 + Var 2 * Var 62 + (Var 3 - Var 6 / Num (2#1)) * Var 63 + (Var 4 + Var 6 / Num (2#1)) * Var 64 + (Var 5 - Var 6 / Num (2#1)) * Var 65 + Var 6 * Var 66.
(** sources/clinopyroxene.c 1970-1975: macros DENDDRi *)
Definition oCpx_dend :=
  [Var 62 - Var 60;
    Var 63 - Var 60;
    Var 64 - Var 60;
    Var 65 - Var 60;
    Var 66 + Num (1#2) * (Var 64 - Var 60 - Var 63 - Var 65);
    Var 61 - Var 60].
(** sources/clinopyroxene.c, order: the site fractions and their clamps *)
Definition oCpx_sites := [mkSite ((Var 3 + Var 4) / Num (2#1)) Both;
    mkSite (Num (1#1) - Var 6 - Var 7) Low;
    mkSite (Var 6) Both;
    mkSite ((Num (4#1) - Num (2#1) * Var 3 - Num (2#1) * Var 4 - Num (2#1) * Var 5 + Var 6) / Num (4#1)) Both;
    mkSite ((Num (2#1) * Var 5 + Var 6 - Num (2#1) * Var 40) / Num (4#1)) Low;
    mkSite ((Num (2#1) * Var 2 - Var 7 - Var 41) / Num (2#1)) Low;
    mkSite ((Num (2#1) * Var 5 + Var 6 + Num (2#1) * Var 40) / Num (4#1)) Low;
    mkSite (Num (1#1) - Var 2 - Var 5 - Num (1#2) * (Var 3 + Var 4 + Var 6 - Var 7 - Var 41)) Low;
    mkSite ((Var 7 + Var 41) / Num (2#1)) Low;
    mkSite ((Var 7 - Var 41) / Num (2#1)) Low;
    mkSite ((Num (4#1) * Var 3 + Num (2#1) * Var 5 - Var 6 + Num (2#1) * Var 40) / Num (8#1)) Low;
    mkSite ((Num (4#1) * Var 4 + Num (2#1) * Var 5 - Var 6 - Num (2#1) * Var 40) / Num (8#1)) Low;
    mkSite (Num (1#1) - Var 2 - Var 5 - Num (1#2) * (Var 3 + Var 4 + Var 6 - Var 7 - Var 41) + (Num (2#1) * Var 2 - Var 7 - Var 41) / Num (2#1) - (Var 3 + Var 4) / Num (2#1)) Free;
    mkSite (Num (1#1) - (Var 3 + Var 4) / Num (2#1)) Free;
    mkSite (Num (1#1) - Var 2 - Var 5 - Num (1#2) * (Var 3 + Var 4 + Var 6 - Var 7 - Var 41) + (Num (2#1) * Var 2 - Var 7 - Var 41) / Num (2#1)) Free;
    mkSite (Num (1#1) - (Num (4#1) - Num (2#1) * Var 3 - Num (2#1) * Var 4 - Num (2#1) * Var 5 + Var 6) / Num (4#1)) Free;
    mkSite (Num (1#1) - (Num (1#1) - Var 2 - Var 5 - Num (1#2) * (Var 3 + Var 4 + Var 6 - Var 7 - Var 41)) - (Num (2#1) * Var 2 - Var 7 - Var 41) / Num (2#1) - Var 6) Free;
    mkSite (Num (1#1) - (Num (1#1) - Var 2 - Var 5 - Num (1#2) * (Var 3 + Var 4 + Var 6 - Var 7 - Var 41)) - (Num (2#1) * Var 2 - Var 7 - Var 41) / Num (2#1)) Free;
    mkSite (Num (1#1) - Var 6) Free].
Definition oCpx := mkOrd "clinopyroxene" 7 6 2 LU true oCpx_sites (Some (oCpx_end, oCpx_dend)) oCpx_g oCpx_s oCpx_v oCpx_r1 oCpx_s1
  oCpx_d2gdr2 oCpx_d2gdrds oCpx_d2gdrdt oCpx_d2gdrdp oCpx_d2gds2 oCpx_d2gdsdt oCpx_d2gdsdp oCpx_d3gdr3 oCpx_d3gdr2ds oCpx_d3gdr2dt oCpx_d3gdr2dp oCpx_d3gdrds2 oCpx_d3gdrdsdt oCpx_d3gdrdsdp oCpx_d3gds3 oCpx_d3gds2dt oCpx_d3gds2dp oCpx_d3gdsdt2 oCpx_d3gdsdtdp oCpx_d3gdsdp2 oCpx_d3gdrdt2 oCpx_d3gdrdtdp oCpx_d3gdrdp2 oCpx_D2GDT2 oCpx_D2GDTDP oCpx_D2GDP2 oCpx_D3GDT3 oCpx_D3GDT2DP oCpx_D3GDTDP2 oCpx_D3GDP3.
(** sources/cummingtonite.c 460: macro G *)
Definition oCum_g :=
  Num (1120001#100) + Num (-48043#5) * Var 40 + Num (-81237#5) * Var 41 + Num (-1120001#100) * Var 2 * Var 2 + Num (-1321473#350) * Var 2 * Var 40 + Num (2383639#700) * Var 2 * Var 41 + Num (-43041657#4900) * Var 40 * Var 40 + Num (10509732#1225) * Var 40 * Var 41 + Num (-3730843#1225) * Var 41 * Var 41 - Var 0 * (Num (-83143#10000) * (Num (2#1) * Site 0 * Log 0 + Num (2#1) * Site 3 * Log 3 + Num (3#1) * Site 1 * Log 1 + Num (3#1) * Site 4 * Log 4 + Num (2#1) * Site 2 * Log 2 + Num (2#1) * Site 5 * Log 5)).
(** sources/cummingtonite.c 451: macro S *)
Definition oCum_s :=
  Num (-83143#10000) * (Num (2#1) * Site 0 * Log 0 + Num (2#1) * Site 3 * Log 3 + Num (3#1) * Site 1 * Log 1 + Num (3#1) * Site 4 * Log 4 + Num (2#1) * Site 2 * Log 2 + Num (2#1) * Site 5 * Log 5).
(** sources/cummingtonite.c 477: macro DGDP *)
Definition oCum_v :=
  Num (0#1).
(** sources/cummingtonite.c 464: macros DGDRi *)
Definition oCum_r1 :=
  [Num (83143#10000) * Var 0 * (Log 0 - Log 3 + Num (3#1) * Log 1 / Num (2#1) - Num (3#1) * Log 4 / Num (2#1) + Log 2 - Log 5) + Num (-1120001#50) * Var 2 + Num (-1321473#350) * Var 40 + Num (2383639#700) * Var 41].
(** sources/cummingtonite.c 468-472: macros DGDSi *)
Definition oCum_s1 :=
  [Num (83143#10000) * Var 0 * (Num (6#1) * Log 0 / Num (7#1) - Num (6#1) * Log 3 / Num (7#1) - Num (12#1) * Log 1 / Num (7#1) + Num (12#1) * Log 4 / Num (7#1) + Num (6#1) * Log 2 / Num (7#1) - Num (6#1) * Log 5 / Num (7#1)) + Num (-48043#5) + Num (-1321473#350) * Var 2 + Num (-43041657#2450) * Var 40 + Num (10509732#1225) * Var 41;
    Num (83143#10000) * Var 0 * (Num (4#1) * Log 0 / Num (7#1) - Num (4#1) * Log 3 / Num (7#1) + Num (6#1) * Log 1 / Num (7#1) - Num (6#1) * Log 4 / Num (7#1) - Num (10#1) * Log 2 / Num (7#1) + Num (10#1) * Log 5 / Num (7#1)) + Num (-81237#5) + Num (2383639#700) * Var 2 + Num (10509732#1225) * Var 40 + Num (-7461686#1225) * Var 41].
(** sources/cummingtonite.c 611: macro fillD2GDR2 *)
Definition oCum_d2gdr2 :=
  [[Num (83143#10000) * Var 0 * (Num (1#2) / Site 0 + Num (1#2) / Site 3 + Num (3#4) / Site 1 + Num (3#4) / Site 4 + Num (1#2) / Site 2 + Num (1#2) / Site 5) + Num (-1120001#50)]].
(** sources/cummingtonite.c 613: macro fillD2GDRDS *)
Definition oCum_d2gdrds :=
  [[Num (83143#10000) * Var 0 * (Num (3#7) / Site 0 + Num (3#7) / Site 3 - Num (6#7) / Site 1 - Num (6#7) / Site 4 + Num (3#7) / Site 2 + Num (3#7) / Site 5) + Num (-1321473#350);
    Num (83143#10000) * Var 0 * (Num (2#7) / Site 0 + Num (2#7) / Site 3 + Num (3#7) / Site 1 + Num (3#7) / Site 4 - Num (5#7) / Site 2 - Num (5#7) / Site 5) + Num (2383639#700)]].
(** sources/cummingtonite.c 615: macro fillD2GDRDT *)
Definition oCum_d2gdrdt :=
  [Num (83143#10000) * (Log 0 - Log 3 + Num (3#1) * Log 1 / Num (2#1) - Num (3#1) * Log 4 / Num (2#1) + Log 2 - Log 5)].
(** sources/cummingtonite.c 617: macro fillD2GDRDP *)
Definition oCum_d2gdrdp :=
  [Num (0#1)].
(** sources/cummingtonite.c 619: macro fillD2GDS2 *)
Definition oCum_d2gds2 :=
  [[Num (83143#10000) * Var 0 * (Num (18#49) / Site 0 + Num (18#49) / Site 3 + Num (48#49) / Site 1 + Num (48#49) / Site 4 + Num (18#49) / Site 2 + Num (18#49) / Site 5) + Num (-43041657#2450);
    Num (83143#10000) * Var 0 * (Num (12#49) / Site 0 + Num (12#49) / Site 3 - Num (24#49) / Site 1 - Num (24#49) / Site 4 - Num (30#49) / Site 2 - Num (30#49) / Site 5) + Num (10509732#1225)];
    [Num (83143#10000) * Var 0 * (Num (12#49) / Site 0 + Num (12#49) / Site 3 - Num (24#49) / Site 1 - Num (24#49) / Site 4 - Num (30#49) / Site 2 - Num (30#49) / Site 5) + Num (10509732#1225);
    Num (83143#10000) * Var 0 * (Num (8#49) / Site 0 + Num (8#49) / Site 3 + Num (12#49) / Site 1 + Num (12#49) / Site 4 + Num (50#49) / Site 2 + Num (50#49) / Site 5) + Num (-7461686#1225)]].
(** sources/cummingtonite.c 622: macro fillD2GDSDT *)
Definition oCum_d2gdsdt :=
  [Num (83143#10000) * (Num (6#1) * Log 0 / Num (7#1) - Num (6#1) * Log 3 / Num (7#1) - Num (12#1) * Log 1 / Num (7#1) + Num (12#1) * Log 4 / Num (7#1) + Num (6#1) * Log 2 / Num (7#1) - Num (6#1) * Log 5 / Num (7#1));
    Num (83143#10000) * (Num (4#1) * Log 0 / Num (7#1) - Num (4#1) * Log 3 / Num (7#1) + Num (6#1) * Log 1 / Num (7#1) - Num (6#1) * Log 4 / Num (7#1) - Num (10#1) * Log 2 / Num (7#1) + Num (10#1) * Log 5 / Num (7#1))].
(** sources/cummingtonite.c 624: macro fillD2GDSDP *)
Definition oCum_d2gdsdp :=
  [Num (0#1);
    Num (0#1)].
(** sources/cummingtonite.c 626: macro fillD3GDR3 *)
Definition oCum_d3gdr3 :=
  [[[Num (83143#10000) * Var 0 * (Num (-1#4) / (Site 2 * Site 2) + Num (1#4) / (Site 5 * Site 5) - Num (3#8) / (Site 1 * Site 1) + Num (3#8) / (Site 4 * Site 4) - Num (1#4) / (Site 0 * Site 0) + Num (1#4) / (Site 3 * Site 3))]]].
(** sources/cummingtonite.c 628: macro fillD3GDR2DS *)
Definition oCum_d3gdr2ds :=
  [[[Num (-83143#10000) * Var 0 * (Num (3#14) / (Site 0 * Site 0) - Num (3#14) / (Site 3 * Site 3) - Num (3#7) / (Site 1 * Site 1) + Num (3#7) / (Site 4 * Site 4) + Num (3#14) / (Site 2 * Site 2) - Num (3#14) / (Site 5 * Site 5));
    Num (-83143#10000) * Var 0 * (Num (1#7) / (Site 0 * Site 0) - Num (1#7) / (Site 3 * Site 3) + Num (3#14) / (Site 1 * Site 1) - Num (3#14) / (Site 4 * Site 4) - Num (5#14) / (Site 2 * Site 2) + Num (5#14) / (Site 5 * Site 5))]]].
(** sources/cummingtonite.c 631: macro fillD3GDR2DT *)
Definition oCum_d3gdr2dt :=
  [[Num (83143#10000) * (Num (1#2) / Site 0 + Num (1#2) / Site 3 + Num (3#4) / Site 1 + Num (3#4) / Site 4 + Num (1#2) / Site 2 + Num (1#2) / Site 5)]].
(** sources/cummingtonite.c 633: macro fillD3GDR2DP *)
Definition oCum_d3gdr2dp :=
  [[Num (0#1)]].
(** sources/cummingtonite.c 635: macro fillD3GDRDS2 *)
Definition oCum_d3gdrds2 :=
  [[[Num (-83143#10000) * Var 0 * (Num (9#49) / (Site 0 * Site 0) - Num (9#49) / (Site 3 * Site 3) + Num (24#49) / (Site 1 * Site 1) - Num (24#49) / (Site 4 * Site 4) + Num (9#49) / (Site 2 * Site 2) - Num (9#49) / (Site 5 * Site 5));
    Num (-83143#10000) * Var 0 * (Num (6#49) / (Site 0 * Site 0) - Num (6#49) / (Site 3 * Site 3) - Num (12#49) / (Site 1 * Site 1) + Num (12#49) / (Site 4 * Site 4) - Num (15#49) / (Site 2 * Site 2) + Num (15#49) / (Site 5 * Site 5))];
    [Num (-83143#10000) * Var 0 * (Num (6#49) / (Site 0 * Site 0) - Num (6#49) / (Site 3 * Site 3) - Num (12#49) / (Site 1 * Site 1) + Num (12#49) / (Site 4 * Site 4) - Num (15#49) / (Site 2 * Site 2) + Num (15#49) / (Site 5 * Site 5));
    Num (-83143#10000) * Var 0 * (Num (4#49) / (Site 0 * Site 0) - Num (4#49) / (Site 3 * Site 3) + Num (6#49) / (Site 1 * Site 1) - Num (6#49) / (Site 4 * Site 4) + Num (25#49) / (Site 2 * Site 2) - Num (25#49) / (Site 5 * Site 5))]]].
(** sources/cummingtonite.c 639: macro fillD3GDRDSDT *)
Definition oCum_d3gdrdsdt :=
  [[Num (83143#10000) * (Num (3#7) / Site 0 + Num (3#7) / Site 3 - Num (6#7) / Site 1 - Num (6#7) / Site 4 + Num (3#7) / Site 2 + Num (3#7) / Site 5);
    Num (83143#10000) * (Num (2#7) / Site 0 + Num (2#7) / Site 3 + Num (3#7) / Site 1 + Num (3#7) / Site 4 - Num (5#7) / Site 2 - Num (5#7) / Site 5)]].
(** sources/cummingtonite.c 642: macro fillD3GDRDSDP *)
Definition oCum_d3gdrdsdp :=
  [[Num (0#1);
    Num (0#1)]].
(** sources/cummingtonite.c 645: macro fillD3GDS3 *)
Definition oCum_d3gds3 :=
  [[[Num (-83143#10000) * Var 0 * (Num (54#343) / (Site 0 * Site 0) - Num (54#343) / (Site 3 * Site 3) - Num (192#343) / (Site 1 * Site 1) + Num (192#343) / (Site 4 * Site 4) + Num (54#343) / (Site 2 * Site 2) - Num (54#343) / (Site 5 * Site 5));
    Num (-83143#10000) * Var 0 * (Num (36#343) / (Site 0 * Site 0) - Num (36#343) / (Site 3 * Site 3) + Num (96#343) / (Site 1 * Site 1) - Num (96#343) / (Site 4 * Site 4) - Num (90#343) / (Site 2 * Site 2) + Num (90#343) / (Site 5 * Site 5))];
    [Num (-83143#10000) * Var 0 * (Num (36#343) / (Site 0 * Site 0) - Num (36#343) / (Site 3 * Site 3) + Num (96#343) / (Site 1 * Site 1) - Num (96#343) / (Site 4 * Site 4) - Num (90#343) / (Site 2 * Site 2) + Num (90#343) / (Site 5 * Site 5));
    Num (-83143#10000) * Var 0 * (Num (24#343) / (Site 0 * Site 0) - Num (24#343) / (Site 3 * Site 3) - Num (48#343) / (Site 1 * Site 1) + Num (48#343) / (Site 4 * Site 4) + Num (150#343) / (Site 2 * Site 2) - Num (150#343) / (Site 5 * Site 5))]];
    [[Num (-83143#10000) * Var 0 * (Num (36#343) / (Site 0 * Site 0) - Num (36#343) / (Site 3 * Site 3) + Num (96#343) / (Site 1 * Site 1) - Num (96#343) / (Site 4 * Site 4) - Num (90#343) / (Site 2 * Site 2) + Num (90#343) / (Site 5 * Site 5));
    Num (-83143#10000) * Var 0 * (Num (24#343) / (Site 0 * Site 0) - Num (24#343) / (Site 3 * Site 3) - Num (48#343) / (Site 1 * Site 1) + Num (48#343) / (Site 4 * Site 4) + Num (150#343) / (Site 2 * Site 2) - Num (150#343) / (Site 5 * Site 5))];
    [Num (-83143#10000) * Var 0 * (Num (24#343) / (Site 0 * Site 0) - Num (24#343) / (Site 3 * Site 3) - Num (48#343) / (Site 1 * Site 1) + Num (48#343) / (Site 4 * Site 4) + Num (150#343) / (Site 2 * Site 2) - Num (150#343) / (Site 5 * Site 5));
    Num (-83143#10000) * Var 0 * (Num (16#343) / (Site 0 * Site 0) - Num (16#343) / (Site 3 * Site 3) + Num (24#343) / (Site 1 * Site 1) - Num (24#343) / (Site 4 * Site 4) - Num (250#343) / (Site 2 * Site 2) + Num (250#343) / (Site 5 * Site 5))]]].
(** sources/cummingtonite.c 651: macro fillD3GDS2DT *)
Definition oCum_d3gds2dt :=
  [[Num (83143#10000) * (Num (18#49) / Site 0 + Num (18#49) / Site 3 + Num (48#49) / Site 1 + Num (48#49) / Site 4 + Num (18#49) / Site 2 + Num (18#49) / Site 5);
    Num (83143#10000) * (Num (12#49) / Site 0 + Num (12#49) / Site 3 - Num (24#49) / Site 1 - Num (24#49) / Site 4 - Num (30#49) / Site 2 - Num (30#49) / Site 5)];
    [Num (83143#10000) * (Num (12#49) / Site 0 + Num (12#49) / Site 3 - Num (24#49) / Site 1 - Num (24#49) / Site 4 - Num (30#49) / Site 2 - Num (30#49) / Site 5);
    Num (83143#10000) * (Num (8#49) / Site 0 + Num (8#49) / Site 3 + Num (12#49) / Site 1 + Num (12#49) / Site 4 + Num (50#49) / Site 2 + Num (50#49) / Site 5)]].
(** sources/cummingtonite.c 655: macro fillD3GDS2DP *)
Definition oCum_d3gds2dp :=
  [[Num (0#1);
    Num (0#1)];
    [Num (0#1);
    Num (0#1)]].
(** sources/cummingtonite.c 659: macro fillD3GDSDT2 *)
Definition oCum_d3gdsdt2 :=
  [Num (0#1);
    Num (0#1)].
(** sources/cummingtonite.c 662: macro fillD3GDSDTDP *)
Definition oCum_d3gdsdtdp :=
  [Num (0#1);
    Num (0#1)].
(** sources/cummingtonite.c 665: macro fillD3GDSDP2 *)
Definition oCum_d3gdsdp2 :=
  [Num (0#1);
    Num (0#1)].
(** sources/cummingtonite.c 668: macro fillD3GDRDT2 *)
Definition oCum_d3gdrdt2 :=
  [Num (0#1)].
(** sources/cummingtonite.c 671: macro fillD3GDRDTDP *)
Definition oCum_d3gdrdtdp :=
  [Num (0#1)].
(** sources/cummingtonite.c 674: macro fillD3GDRDP2 *)
Definition oCum_d3gdrdp2 :=
  [Num (0#1)].
(** sources/cummingtonite.c 516: macro D2GDT2 *)
Definition oCum_D2GDT2 :=
  Num (0#1).
(** sources/cummingtonite.c 517: macro D2GDTDP *)
Definition oCum_D2GDTDP :=
  Num (0#1).
(** sources/cummingtonite.c 518: macro D2GDP2 *)
Definition oCum_D2GDP2 :=
  Num (0#1).
(** sources/cummingtonite.c 598: macro D3GDT3 *)
Definition oCum_D3GDT3 :=
  Num (0#1).
(** sources/cummingtonite.c 599: macro D3GDT2DP *)
Definition oCum_D3GDT2DP :=
  Num (0#1).
(** sources/cummingtonite.c 600: macro D3GDTDP2 *)
Definition oCum_D3GDTDP2 :=
  Num (0#1).
(** sources/cummingtonite.c 601: macro D3GDP3 *)
Definition oCum_D3GDP3 :=
  Num (0#1).
(** sources/cummingtonite.c, order: the site fractions and their clamps *)
Definition oCum_sites := [mkSite ((Num (1#1) + Var 2 + Num (6#1) * Var 40 / Num (7#1) + Num (4#1) * Var 41 / Num (7#1)) / Num (2#1)) Both0;
    mkSite ((Num (1#1) + Var 2 - Num (8#1) * Var 40 / Num (7#1) + Num (4#1) * Var 41 / Num (7#1)) / Num (2#1)) Both0;
    mkSite ((Num (1#1) + Var 2 + Num (6#1) * Var 40 / Num (7#1) - Num (10#1) * Var 41 / Num (7#1)) / Num (2#1)) Both0;
    mkSite (Num (1#1) - (Num (1#1) + Var 2 + Num (6#1) * Var 40 / Num (7#1) + Num (4#1) * Var 41 / Num (7#1)) / Num (2#1)) Both0;
    mkSite (Num (1#1) - (Num (1#1) + Var 2 - Num (8#1) * Var 40 / Num (7#1) + Num (4#1) * Var 41 / Num (7#1)) / Num (2#1)) Both0;
    mkSite (Num (1#1) - (Num (1#1) + Var 2 + Num (6#1) * Var 40 / Num (7#1) - Num (10#1) * Var 41 / Num (7#1)) / Num (2#1)) Both0].
Definition oCum := mkOrd "cummingtonite" 2 1 2 LU false oCum_sites None oCum_g oCum_s oCum_v oCum_r1 oCum_s1
  oCum_d2gdr2 oCum_d2gdrds oCum_d2gdrdt oCum_d2gdrdp oCum_d2gds2 oCum_d2gdsdt oCum_d2gdsdp oCum_d3gdr3 oCum_d3gdr2ds oCum_d3gdr2dt oCum_d3gdr2dp oCum_d3gdrds2 oCum_d3gdrdsdt oCum_d3gdrdsdp oCum_d3gds3 oCum_d3gds2dt oCum_d3gds2dp oCum_d3gdsdt2 oCum_d3gdsdtdp oCum_d3gdsdp2 oCum_d3gdrdt2 oCum_d3gdrdtdp oCum_d3gdrdp2 oCum_D2GDT2 oCum_D2GDTDP oCum_D2GDP2 oCum_D3GDT3 oCum_D3GDT2DP oCum_D3GDTDP2 oCum_D3GDP3.
(** sources/melilite.c 1148: macro G *)
Definition oMel_g :=
  Num (16000#1) * Var 40 + Num (9000#1) * Var 2 * (Num (1#1) - Var 2) - Num (38354#1) * Var 40 * Var 40 + Num (16000#1) * Var 3 * (Num (1#1) - Var 3) + Num (34354#1) * Var 2 * Var 40 + Num (-16000#1) * Var 2 * Var 3 + Num (-16000#1) * Var 3 * Var 4 - Var 0 * (Num (-83143#10000) * (Num (2#1) * Site 0 * Log 0 + Num (2#1) * Site 1 * Log 1 + Site 2 * Log 2 + Site 3 * Log 3 + Site 4 * Log 4 + Site 5 * Log 5 + Num (2#1) * Site 6 * Log 6 + Num (2#1) * Site 7 * Log 7)).
(** sources/melilite.c 1139: macro S *)
Definition oMel_s :=
  Num (-83143#10000) * (Num (2#1) * Site 0 * Log 0 + Num (2#1) * Site 1 * Log 1 + Site 2 * Log 2 + Site 3 * Log 3 + Site 4 * Log 4 + Site 5 * Log 5 + Num (2#1) * Site 6 * Log 6 + Num (2#1) * Site 7 * Log 7).
(** sources/melilite.c 1163: macro DGDP *)
Definition oMel_v :=
  Num (0#1).
(** sources/melilite.c 1150-1156: macros DGDRi *)
Definition oMel_r1 :=
  [Num (83143#10000) * Var 0 * ((- Log 2) + Log 4 + Log 6 - Log 7) + Num (9000#1) * (Num (1#1) - Num (2#1) * Var 2) + Num (34354#1) * Var 40 + Num (-16000#1) * Var 3;
    Num (83143#10000) * Var 0 * ((- Log 2) + Log 3) + Num (16000#1) * (Num (1#1) - Num (2#1) * Var 3) + Num (-16000#1) * Var 2 + Num (-16000#1) * Var 4;
    Num (83143#10000) * Var 0 * (Num (-2#1) * Log 0 + Num (2#1) * Log 1 - Log 2 + Log 5) + Num (-16000#1) * Var 3].
(** sources/melilite.c 1159: macros DGDSi *)
Definition oMel_s1 :=
  [Num (83143#10000) * Var 0 * ((- Log 4) + Log 5 + Log 6 - Log 7) + Num (16000#1) - Num (76708#1) * Var 40 + Num (34354#1) * Var 2].
(** sources/melilite.c 1267: macro fillD2GDR2 *)
Definition oMel_d2gdr2 :=
  [[Num (83143#10000) * Var 0 * (Num (1#1) / Site 2 + Num (1#1) / Site 4 + Num (1#2) / Site 6 + Num (1#2) / Site 7) - Num (18000#1);
    Num (83143#10000) * Var 0 * (Num (1#1) / Site 2) + Num (-16000#1);
    Num (83143#10000) * Var 0 * (Num (1#1) / Site 2)];
    [Num (83143#10000) * Var 0 * (Num (1#1) / Site 2) + Num (-16000#1);
    Num (83143#10000) * Var 0 * (Num (1#1) / Site 2 + Num (1#1) / Site 3) - Num (32000#1);
    Num (83143#10000) * Var 0 * (Num (1#1) / Site 2) + Num (-16000#1)];
    [Num (83143#10000) * Var 0 * (Num (1#1) / Site 2);
    Num (83143#10000) * Var 0 * (Num (1#1) / Site 2) + Num (-16000#1);
    Num (83143#10000) * Var 0 * (Num (2#1) / Site 0 + Num (2#1) / Site 1 + Num (1#1) / Site 2 + Num (1#1) / Site 5)]].
(** sources/melilite.c 1275: macro fillD2GDRDS *)
Definition oMel_d2gdrds :=
  [[Num (83143#10000) * Var 0 * (Num (-1#1) / Site 4 + Num (1#2) / Site 6 + Num (1#2) / Site 7) + Num (34354#1)];
    [Num (0#1)];
    [Num (83143#10000) * Var 0 * (Num (1#1) / Site 5)]].
(** sources/melilite.c 1280: macro fillD2GDRDT *)
Definition oMel_d2gdrdt :=
  [Num (83143#10000) * ((- Log 2) + Log 4 + Log 6 - Log 7);
    Num (83143#10000) * ((- Log 2) + Log 3);
    Num (83143#10000) * (Num (-2#1) * Log 0 + Num (2#1) * Log 1 - Log 2 + Log 5)].
(** sources/melilite.c 1283: macro fillD2GDRDP *)
Definition oMel_d2gdrdp :=
  [Num (0#1);
    Num (0#1);
    Num (0#1)].
(** sources/melilite.c 680-1286: macro fillD2GDS2 *)
Definition oMel_d2gds2 :=
  [[Num (83143#10000) * Var 0 * (Num (1#1) / Site 4 + Num (1#1) / Site 5 + Num (1#2) / Site 6 + Num (1#2) / Site 7) - Num (76708#1)]].
(** sources/melilite.c 519-1289: macro fillD2GDSDT *)
Definition oMel_d2gdsdt :=
  [Num (83143#10000) * ((- Log 4) + Log 5 + Log 6 - Log 7)].
(** sources/melilite.c 522-1292: macro fillD2GDSDP *)
Definition oMel_d2gdsdp :=
  [Num (0#1)].
(** sources/melilite.c 1295: macro fillD3GDR3 *)
Definition oMel_d3gdr3 :=
  [[[Num (83143#10000) * Var 0 * (Num (1#1) / (Site 2 * Site 2) - Num (1#1) / (Site 4 * Site 4) - Num (1#4) / (Site 6 * Site 6) + Num (1#4) / (Site 7 * Site 7));
    Num (83143#10000) * Var 0 * (Num (1#1) / (Site 2 * Site 2));
    Num (83143#10000) * Var 0 * (Num (1#1) / (Site 2 * Site 2))];
    [Num (83143#10000) * Var 0 * (Num (1#1) / (Site 2 * Site 2));
    Num (83143#10000) * Var 0 * (Num (1#1) / (Site 2 * Site 2));
    Num (83143#10000) * Var 0 * (Num (1#1) / (Site 2 * Site 2))];
    [Num (83143#10000) * Var 0 * (Num (1#1) / (Site 2 * Site 2));
    Num (83143#10000) * Var 0 * (Num (1#1) / (Site 2 * Site 2));
    Num (83143#10000) * Var 0 * (Num (1#1) / (Site 2 * Site 2))]];
    [[Num (83143#10000) * Var 0 * (Num (1#1) / (Site 2 * Site 2));
    Num (83143#10000) * Var 0 * (Num (1#1) / (Site 2 * Site 2));
    Num (83143#10000) * Var 0 * (Num (1#1) / (Site 2 * Site 2))];
    [Num (83143#10000) * Var 0 * (Num (1#1) / (Site 2 * Site 2));
    Num (83143#10000) * Var 0 * (Num (1#1) / (Site 2 * Site 2) - Num (1#1) / (Site 3 * Site 3));
    Num (83143#10000) * Var 0 * (Num (1#1) / (Site 2 * Site 2))];
    [Num (83143#10000) * Var 0 * (Num (1#1) / (Site 2 * Site 2));
    Num (83143#10000) * Var 0 * (Num (1#1) / (Site 2 * Site 2));
    Num (83143#10000) * Var 0 * (Num (1#1) / (Site 2 * Site 2))]];
    [[Num (83143#10000) * Var 0 * (Num (1#1) / (Site 2 * Site 2));
    Num (83143#10000) * Var 0 * (Num (1#1) / (Site 2 * Site 2));
    Num (83143#10000) * Var 0 * (Num (1#1) / (Site 2 * Site 2))];
    [Num (83143#10000) * Var 0 * (Num (1#1) / (Site 2 * Site 2));
    Num (83143#10000) * Var 0 * (Num (1#1) / (Site 2 * Site 2));
    Num (83143#10000) * Var 0 * (Num (1#1) / (Site 2 * Site 2))];
    [Num (83143#10000) * Var 0 * (Num (1#1) / (Site 2 * Site 2));
    Num (83143#10000) * Var 0 * (Num (1#1) / (Site 2 * Site 2));
    Num (83143#10000) * Var 0 * (Num (2#1) / (Site 0 * Site 0) - Num (2#1) / (Site 1 * Site 1) + Num (1#1) / (Site 2 * Site 2) - Num (1#1) / (Site 5 * Site 5))]]].
(** sources/melilite.c 1311: macro fillD3GDR2DS *)
Definition oMel_d3gdr2ds :=
  [[[Num (83143#10000) * Var 0 * (Num (1#1) / (Site 4 * Site 4) - Num (1#4) / (Site 6 * Site 6) + Num (1#4) / (Site 7 * Site 7))];
    [Num (0#1)];
    [Num (0#1)]];
    [[Num (0#1)];
    [Num (0#1)];
    [Num (0#1)]];
    [[Num (0#1)];
    [Num (0#1)];
    [Num (83143#10000) * Var 0 * (Num (-1#1) / (Site 5 * Site 5))]]].
(** sources/melilite.c 1322: macro fillD3GDR2DT *)
Definition oMel_d3gdr2dt :=
  [[Num (83143#10000) * (Num (1#1) / Site 2 + Num (1#1) / Site 4 + Num (1#2) / Site 6 + Num (1#2) / Site 7);
    Num (83143#10000) * (Num (1#1) / Site 2);
    Num (83143#10000) * (Num (1#1) / Site 2)];
    [Num (83143#10000) * (Num (1#1) / Site 2);
    Num (83143#10000) * (Num (1#1) / Site 2 + Num (1#1) / Site 3);
    Num (83143#10000) * (Num (1#1) / Site 2)];
    [Num (83143#10000) * (Num (1#1) / Site 2);
    Num (83143#10000) * (Num (1#1) / Site 2);
    Num (83143#10000) * (Num (2#1) / Site 0 + Num (2#1) / Site 1 + Num (1#1) / Site 2 + Num (1#1) / Site 5)]].
(** sources/melilite.c 1330: macro fillD3GDR2DP *)
Definition oMel_d3gdr2dp :=
  [[Num (0#1);
    Num (0#1);
    Num (0#1)];
    [Num (0#1);
    Num (0#1);
    Num (0#1)];
    [Num (0#1);
    Num (0#1);
    Num (0#1)]].
(** sources/melilite.c 1338: macro fillD3GDRDS2 *)
Definition oMel_d3gdrds2 :=
  [[[Num (83143#10000) * Var 0 * (Num (-1#1) / (Site 4 * Site 4) - Num (1#4) / (Site 6 * Site 6) + Num (1#4) / (Site 7 * Site 7))]];
    [[Num (0#1)]];
    [[Num (83143#10000) * Var 0 * (Num (-1#1) / (Site 5 * Site 5))]]].
(** sources/melilite.c 1343: macro fillD3GDRDSDT *)
Definition oMel_d3gdrdsdt :=
  [[Num (83143#10000) * (Num (-1#1) / Site 4 + Num (1#2) / Site 6 + Num (1#2) / Site 7)];
    [Num (0#1)];
    [Num (83143#10000) * (Num (1#1) / Site 5)]].
(** sources/melilite.c 1348: macro fillD3GDRDSDP *)
Definition oMel_d3gdrdsdp :=
  [[Num (0#1)];
    [Num (0#1)];
    [Num (0#1)]].
(** sources/melilite.c 525-1353: macro fillD3GDS3 *)
Definition oMel_d3gds3 :=
  [[[Num (83143#10000) * Var 0 * (Num (1#1) / (Site 4 * Site 4) - Num (1#1) / (Site 5 * Site 5) - Num (1#4) / (Site 6 * Site 6) + Num (1#4) / (Site 7 * Site 7))]]].
(** sources/melilite.c 528-1356: macro fillD3GDS2DT *)
Definition oMel_d3gds2dt :=
  [[Num (83143#10000) * (Num (1#1) / Site 4 + Num (1#1) / Site 5 + Num (1#2) / Site 6 + Num (1#2) / Site 7)]].
(** sources/melilite.c 531-1359: macro fillD3GDS2DP *)
Definition oMel_d3gds2dp :=
  [[Num (0#1)]].
(** sources/melilite.c 534-1362: macro fillD3GDSDT2 *)
Definition oMel_d3gdsdt2 :=
  [Num (0#1)].
(** sources/melilite.c 537-1365: macro fillD3GDSDTDP *)
Definition oMel_d3gdsdtdp :=
  [Num (0#1)].
(** sources/melilite.c 540-1368: macro fillD3GDSDP2 *)
Definition oMel_d3gdsdp2 :=
  [Num (0#1)].
(** sources/melilite.c 1371: macro fillD3GDRDT2 *)
Definition oMel_d3gdrdt2 :=
  [Num (0#1);
    Num (0#1);
    Num (0#1)].
(** sources/melilite.c 1375: macro fillD3GDRDTDP *)
Definition oMel_d3gdrdtdp :=
  [Num (0#1);
    Num (0#1);
    Num (0#1)].
(** sources/melilite.c 1379: macro fillD3GDRDP2 *)
Definition oMel_d3gdrdp2 :=
  [Num (0#1);
    Num (0#1);
    Num (0#1)].
(** sources/melilite.c 1187: macro D2GDT2 *)
Definition oMel_D2GDT2 :=
  Num (0#1).
(** sources/melilite.c 1188: macro D2GDTDP *)
Definition oMel_D2GDTDP :=
  Num (0#1).
(** sources/melilite.c 1189: macro D2GDP2 *)
Definition oMel_D2GDP2 :=
  Num (0#1).
(** sources/melilite.c 1257: macro D3GDT3 *)
Definition oMel_D3GDT3 :=
  Num (0#1).
(** sources/melilite.c 1258: macro D3GDT2DP *)
Definition oMel_D3GDT2DP :=
  Num (0#1).
(** sources/melilite.c 1259: macro D3GDTDP2 *)
Definition oMel_D3GDTDP2 :=
  Num (0#1).
(** sources/melilite.c 1260: macro D3GDP3 *)
Definition oMel_D3GDP3 :=
  Num (0#1).
(** sources/melilite.c 1129: macro ENDMEMBERS *)
Definition oMel_end :=
  (Num (1#1) - Var 2 - Var 3 - Var 4) * Var 60 + Var 2 * Var 61 + Var 3 * Var 62 + Var 4 * Var 63.
(** sources/melilite.c 1131-1133: macros DENDDRi *)
Definition oMel_dend :=
  [Var 61 - Var 60;
    Var 62 - Var 60;
    Var 63 - Var 60].
(** sources/melilite.c, order: the site fractions and their clamps *)
Definition oMel_sites := [mkSite (Num (1#1) - Var 4) Both0;
    mkSite (Var 4) Both0;
    mkSite (Num (1#1) - Var 2 - Var 3 - Var 4) Both0;
    mkSite (Var 3) Both0;
    mkSite (Var 2 - Var 40) Both0;
    mkSite (Var 4 + Var 40) Both0;
    mkSite ((Var 2 + Var 40) / Num (2#1)) Both0;
    mkSite (Num (1#1) - (Var 2 + Var 40) / Num (2#1)) Both0].
Definition oMel := mkOrd "melilite" 4 3 1 LU false oMel_sites (Some (oMel_end, oMel_dend)) oMel_g oMel_s oMel_v oMel_r1 oMel_s1
  oMel_d2gdr2 oMel_d2gdrds oMel_d2gdrdt oMel_d2gdrdp oMel_d2gds2 oMel_d2gdsdt oMel_d2gdsdp oMel_d3gdr3 oMel_d3gdr2ds oMel_d3gdr2dt oMel_d3gdr2dp oMel_d3gdrds2 oMel_d3gdrdsdt oMel_d3gdrdsdp oMel_d3gds3 oMel_d3gds2dt oMel_d3gds2dp oMel_d3gdsdt2 oMel_d3gdsdtdp oMel_d3gdsdp2 oMel_d3gdrdt2 oMel_d3gdrdtdp oMel_d3gdrdp2 oMel_D2GDT2 oMel_D2GDTDP oMel_D2GDP2 oMel_D3GDT3 oMel_D3GDT2DP oMel_D3GDTDP2 oMel_D3GDP3.
(** sources/nepheline.c 465: macro G *)
Definition oNph_g :=
  Num (-2695003#100) * Var 40 + Num (2198577#50) * Var 2 * (Num (1#1) - Var 2) + Num (-7721917#800) * Var 40 * Var 40 - Num (-2215543#100) * Var 2 * Var 40 + Num (14644#1) * Var 3 * (Num (1#1) - Var 3) + Num (10291303#200) * Var 2 * Var 3 + Num (-20801511#800) * Var 3 * Var 40 + Num (33972829#100) * Var 2 * Var 4 / Num (18#1) + Num (-14644#1) * Var 3 * Var 4 + Num (-57019063#100) * Var 4 * Var 40 / Num (24#1) - Var 0 * (Num (-31753#2000) * Var 4 - Num (83143#10000) * (Site 0 * Log 0 + Site 1 * Log 1 + Site 2 * Log 2 - (Num (1#1) - Num (3#1) * Site 4) * Log 6 + Num (3#1) * Site 3 * Log 3 + Num (3#1) * Site 4 * Log 4 + Num (3#1) * Site 5 * Log 5) + Num (-2929#400) * Var 40 + Num (251#20) * Var 2 * (Num (1#1) - Var 2) + Num (753#320) * Var 40 * Var 40 - Num (251#40) * Var 2 * Var 40 + Num (-3347#200) * Var 2 * Var 3 + Num (3347#800) * Var 3 * Var 40 + Num (-25101#100) * Var 2 * Var 4 / Num (18#1) + Num (15063#100) * Var 4 * Var 40 / Num (24#1)) + (Var 1 - Num (1#1)) * (Num (-33#80) * Var 40 + Num (87#100) * Var 2 * (Num (1#1) - Var 2) + Num (-351#1600) * Var 40 * Var 40 - Num (9#40) * Var 2 * Var 40 + Num (-171#200) * Var 2 * Var 3 + Num (-93#800) * Var 3 * Var 40 + Num (-45#4) * Var 2 * Var 4 / Num (18#1) + Num (567#100) * Var 4 * Var 40 / Num (24#1)) + Num (1#67108864) / Site 7.
(** sources/nepheline.c 410: macro S *)
Definition oNph_s :=
  Num (-31753#2000) * Var 4 - Num (83143#10000) * (Site 0 * Log 0 + Site 1 * Log 1 + Site 2 * Log 2 - (Num (1#1) - Num (3#1) * Site 4) * Log 6 + Num (3#1) * Site 3 * Log 3 + Num (3#1) * Site 4 * Log 4 + Num (3#1) * Site 5 * Log 5) + Num (-2929#400) * Var 40 + Num (251#20) * Var 2 * (Num (1#1) - Var 2) + Num (753#320) * Var 40 * Var 40 - Num (251#40) * Var 2 * Var 40 + Num (-3347#200) * Var 2 * Var 3 + Num (3347#800) * Var 3 * Var 40 + Num (-25101#100) * Var 2 * Var 4 / Num (18#1) + Num (15063#100) * Var 4 * Var 40 / Num (24#1).
(** sources/nepheline.c 537: macro DGDP *)
Definition oNph_v :=
  Num (-33#80) * Var 40 + Num (87#100) * Var 2 * (Num (1#1) - Var 2) + Num (-351#1600) * Var 40 * Var 40 - Num (9#40) * Var 2 * Var 40 + Num (-171#200) * Var 2 * Var 3 + Num (-93#800) * Var 3 * Var 40 + Num (-45#4) * Var 2 * Var 4 / Num (18#1) + Num (567#100) * Var 4 * Var 40 / Num (24#1).
(** sources/nepheline.c 469-505: macros DGDRi *)
Definition oNph_r1 :=
  [Num (83143#10000) * Var 0 * (Log 0 - Log 2 + Num (3#1) * Log 3 - Num (3#1) * Log 5) + (Num (-694659#50) - Var 0 * Num (251#20) + (Num (171544#25) + (Var 1 - Num (1#1)) * Num (33#100)) + (Num (1275074#25) + (Var 1 - Num (1#1)) * Num (27#50))) * (Num (1#1) - Num (2#1) * Var 2) - Num (1#2) * (Num (-694659#50) - Var 0 * Num (251#20) + Num (3#1) * (Num (171544#25) + (Var 1 - Num (1#1)) * Num (33#100)) - (Num (1275074#25) + (Var 1 - Num (1#1)) * Num (27#50))) * Var 40 + Num (1#2) * (Num (147040#1) + (Num (-3174463#100) - Var 0 * Num (-523#25) + (Var 1 - Num (1#1)) * Num (-21#20)) - (Num (-694659#50) - Var 0 * Num (251#20)) - Num (2#1) * (Num (171544#25) + (Var 1 - Num (1#1)) * Num (33#100)) - Num (29288#1) + Num (16736#1)) * Var 3 + (Num (441120#1) + Num (3#1) * (Num (-3174463#100) - Var 0 * Num (-523#25) + (Var 1 - Num (1#1)) * Num (-21#20)) - Num (15#1) * (Num (-694659#50) - Var 0 * Num (251#20)) - Num (18#1) * (Num (171544#25) + (Var 1 - Num (1#1)) * Num (33#100)) - Num (4#1) * (Num (1275074#25) + (Var 1 - Num (1#1)) * Num (27#50)) + Num (263592#1) - Num (150624#1)) * Var 4 / Num (18#1);
    Num (83143#10000) * Var 0 * (Log 1 - Log 2) + Num (14644#1) * (Num (1#1) - Num (2#1) * Var 3) + Num (1#2) * (Num (147040#1) + (Num (-3174463#100) - Var 0 * Num (-523#25) + (Var 1 - Num (1#1)) * Num (-21#20)) - (Num (-694659#50) - Var 0 * Num (251#20)) - Num (2#1) * (Num (171544#25) + (Var 1 - Num (1#1)) * Num (33#100)) - Num (29288#1) + Num (16736#1)) * Var 2 + Num (1#8) * (Num (-694659#50) - Var 0 * Num (251#20) - (Num (-3174463#100) - Var 0 * Num (-523#25) + (Var 1 - Num (1#1)) * Num (-21#20)) - Num (147040#1) - Num (6#1) * (Num (171544#25) + (Var 1 - Num (1#1)) * Num (33#100)) - Num (87864#1) + Num (50208#1)) * Var 40 + Num (-14644#1) * Var 4 - Num (1#67108864) / (Site 7 * Site 7);
    (- Var 0) * Num (-31753#2000) + Num (83143#10000) * Var 0 * (Log 1 - Log 2 + Log 6 + Log 4 - Log 5 + Num (1#1)) + (Num (441120#1) + Num (3#1) * (Num (-3174463#100) - Var 0 * Num (-523#25) + (Var 1 - Num (1#1)) * Num (-21#20)) - Num (15#1) * (Num (-694659#50) - Var 0 * Num (251#20)) - Num (18#1) * (Num (171544#25) + (Var 1 - Num (1#1)) * Num (33#100)) - Num (4#1) * (Num (1275074#25) + (Var 1 - Num (1#1)) * Num (27#50)) + Num (263592#1) - Num (150624#1)) * Var 2 / Num (18#1) + Num (-14644#1) * Var 3 + (Num (112968#1) - Num (18#1) * (Num (171544#25) + (Var 1 - Num (1#1)) * Num (33#100)) + Num (4#1) * (Num (1275074#25) + (Var 1 - Num (1#1)) * Num (27#50)) - Num (9#1) * (Num (-3174463#100) - Var 0 * Num (-523#25) + (Var 1 - Num (1#1)) * Num (-21#20)) - Num (3#1) * (Num (-694659#50) - Var 0 * Num (251#20)) + Num (441120#1) - Num (1532160#1)) * Var 40 / Num (24#1)].
(** sources/nepheline.c 513: macros DGDSi *)
Definition oNph_s1 :=
  [Num (83143#10000) * Var 0 * (Num (3#4) * Log 0 - Num (3#4) * Log 2 - Num (3#4) * Log 3 + Num (3#4) * Log 5) + Num (1#4) * (Num (2#1) * (Num (-3174463#100) - Var 0 * Num (-523#25) + (Var 1 - Num (1#1)) * Num (-21#20)) + (Num (-694659#50) - Var 0 * Num (251#20)) + Num (3#1) * (Num (171544#25) + (Var 1 - Num (1#1)) * Num (33#100)) - (Num (1275074#25) + (Var 1 - Num (1#1)) * Num (27#50))) + Num (1#8) * (Num (3#1) * (Num (-694659#50) - Var 0 * Num (251#20)) - Num (9#1) * (Num (171544#25) + (Var 1 - Num (1#1)) * Num (33#100)) - (Num (1275074#25) + (Var 1 - Num (1#1)) * Num (27#50))) * Var 40 - Num (1#2) * (Num (-694659#50) - Var 0 * Num (251#20) + Num (3#1) * (Num (171544#25) + (Var 1 - Num (1#1)) * Num (33#100)) - (Num (1275074#25) + (Var 1 - Num (1#1)) * Num (27#50))) * Var 2 + Num (1#8) * (Num (-694659#50) - Var 0 * Num (251#20) - (Num (-3174463#100) - Var 0 * Num (-523#25) + (Var 1 - Num (1#1)) * Num (-21#20)) - Num (147040#1) - Num (6#1) * (Num (171544#25) + (Var 1 - Num (1#1)) * Num (33#100)) - Num (87864#1) + Num (50208#1)) * Var 3 + (Num (112968#1) - Num (18#1) * (Num (171544#25) + (Var 1 - Num (1#1)) * Num (33#100)) + Num (4#1) * (Num (1275074#25) + (Var 1 - Num (1#1)) * Num (27#50)) - Num (9#1) * (Num (-3174463#100) - Var 0 * Num (-523#25) + (Var 1 - Num (1#1)) * Num (-21#20)) - Num (3#1) * (Num (-694659#50) - Var 0 * Num (251#20)) + Num (441120#1) - Num (1532160#1)) * Var 4 / Num (24#1)].
(** sources/nepheline.c 745: macro fillD2GDR2 *)
Definition oNph_d2gdr2 :=
  [[Num (83143#10000) * Var 0 * (Num (1#1) / Site 0 + Num (1#1) / Site 2 + Num (3#1) / Site 3 + Num (3#1) / Site 5) - Num (2#1) * (Num (-694659#50) - Var 0 * Num (251#20) + (Num (171544#25) + (Var 1 - Num (1#1)) * Num (33#100)) + (Num (1275074#25) + (Var 1 - Num (1#1)) * Num (27#50)));
    Num (83143#10000) * Var 0 / Site 2 + Num (1#2) * (Num (147040#1) + (Num (-3174463#100) - Var 0 * Num (-523#25) + (Var 1 - Num (1#1)) * Num (-21#20)) - (Num (-694659#50) - Var 0 * Num (251#20)) - Num (2#1) * (Num (171544#25) + (Var 1 - Num (1#1)) * Num (33#100)) - Num (29288#1) + Num (16736#1));
    Num (83143#10000) * Var 0 * (Num (1#1) / Site 2 + Num (1#1) / Site 5) + (Num (441120#1) + Num (3#1) * (Num (-3174463#100) - Var 0 * Num (-523#25) + (Var 1 - Num (1#1)) * Num (-21#20)) - Num (15#1) * (Num (-694659#50) - Var 0 * Num (251#20)) - Num (18#1) * (Num (171544#25) + (Var 1 - Num (1#1)) * Num (33#100)) - Num (4#1) * (Num (1275074#25) + (Var 1 - Num (1#1)) * Num (27#50)) + Num (263592#1) - Num (150624#1)) / Num (18#1)];
    [Num (83143#10000) * Var 0 / Site 2 + Num (1#2) * (Num (147040#1) + (Num (-3174463#100) - Var 0 * Num (-523#25) + (Var 1 - Num (1#1)) * Num (-21#20)) - (Num (-694659#50) - Var 0 * Num (251#20)) - Num (2#1) * (Num (171544#25) + (Var 1 - Num (1#1)) * Num (33#100)) - Num (29288#1) + Num (16736#1));
    Num (83143#10000) * Var 0 * (Num (1#1) / Site 1 + Num (1#1) / Site 2) - Num (29288#1) + Num (1#33554432) / (Site 7 * Site 7 * Site 7);
    Num (83143#10000) * Var 0 * (Num (1#1) / Site 1 + Num (1#1) / Site 2) + Num (-14644#1)];
    [Num (83143#10000) * Var 0 * (Num (1#1) / Site 2 + Num (1#1) / Site 5) + (Num (441120#1) + Num (3#1) * (Num (-3174463#100) - Var 0 * Num (-523#25) + (Var 1 - Num (1#1)) * Num (-21#20)) - Num (15#1) * (Num (-694659#50) - Var 0 * Num (251#20)) - Num (18#1) * (Num (171544#25) + (Var 1 - Num (1#1)) * Num (33#100)) - Num (4#1) * (Num (1275074#25) + (Var 1 - Num (1#1)) * Num (27#50)) + Num (263592#1) - Num (150624#1)) / Num (18#1);
    Num (83143#10000) * Var 0 * (Num (1#1) / Site 1 + Num (1#1) / Site 2) + Num (-14644#1);
    Num (83143#10000) * Var 0 * (Num (1#1) / Site 1 + Num (1#1) / Site 2 - Num (1#1) / Site 6 + Num (1#1) / (Num (3#1) * Site 4) + Num (1#1) / (Num (3#1) * Site 5))]].
(** sources/nepheline.c 750: macro fillD2GDRDS *)
Definition oNph_d2gdrds :=
  [[Num (83143#10000) * Var 0 * (Num (3#4) / Site 0 + Num (3#4) / Site 2 - Num (3#4) / Site 3 - Num (3#4) / Site 5) - Num (1#2) * (Num (-694659#50) - Var 0 * Num (251#20) + Num (3#1) * (Num (171544#25) + (Var 1 - Num (1#1)) * Num (33#100)) - (Num (1275074#25) + (Var 1 - Num (1#1)) * Num (27#50)))];
    [Num (83143#10000) * Var 0 * Num (3#4) / Site 2 + Num (1#8) * (Num (-694659#50) - Var 0 * Num (251#20) - (Num (-3174463#100) - Var 0 * Num (-523#25) + (Var 1 - Num (1#1)) * Num (-21#20)) - Num (147040#1) - Num (6#1) * (Num (171544#25) + (Var 1 - Num (1#1)) * Num (33#100)) - Num (87864#1) + Num (50208#1))];
    [Num (83143#10000) * Var 0 * (Num (3#4) / Site 2 - Num (1#4) / Site 5) + (Num (112968#1) - Num (18#1) * (Num (171544#25) + (Var 1 - Num (1#1)) * Num (33#100)) + Num (4#1) * (Num (1275074#25) + (Var 1 - Num (1#1)) * Num (27#50)) - Num (9#1) * (Num (-3174463#100) - Var 0 * Num (-523#25) + (Var 1 - Num (1#1)) * Num (-21#20)) - Num (3#1) * (Num (-694659#50) - Var 0 * Num (251#20)) + Num (441120#1) - Num (1532160#1)) / Num (24#1)]].
(** sources/nepheline.c 751: macro fillD2GDRDT *)
Definition oNph_d2gdrdt :=
  [Num (83143#10000) * (Log 0 - Log 2 + Num (3#1) * Log 3 - Num (3#1) * Log 5) - Num (251#20) * (Num (1#1) - Num (2#1) * Var 2) + Num (251#40) * Var 40 - Num (-3347#200) * Var 3 + Num (25101#100) * Var 4 / Num (18#1);
    Num (83143#10000) * (Log 1 - Log 2) - Num (-3347#200) * Var 2 - Num (3347#800) * Var 40;
    Num (31753#2000) + Num (83143#10000) * (Log 1 - Log 2 + Log 6 + Log 4 - Log 5 + Num (1#1)) + Num (25101#100) * Var 2 / Num (18#1) + Num (-15063#100) * Var 40 / Num (24#1)].
(** sources/nepheline.c 752: macro fillD2GDRDP *)
Definition oNph_d2gdrdp :=
  [Num (87#100) * (Num (1#1) - Num (2#1) * Var 2) - Num (9#40) * Var 40 + Num (-171#200) * Var 3 + Num (-45#4) * Var 4 / Num (18#1);
    Num (-171#200) * Var 2 + Num (-93#800) * Var 40;
    Num (-45#4) * Var 2 / Num (18#1) + Num (567#100) * Var 40 / Num (24#1)].
(** sources/nepheline.c 753: macro fillD2GDS2 *)
Definition oNph_d2gds2 :=
  [[Num (83143#10000) * Var 0 * (Num (9#16) / Site 0 + Num (9#16) / Site 2 + Num (3#16) / Site 3 + Num (3#16) / Site 5) + Num (1#8) * (Num (3#1) * (Num (-694659#50) - Var 0 * Num (251#20)) - Num (9#1) * (Num (171544#25) + (Var 1 - Num (1#1)) * Num (33#100)) - (Num (1275074#25) + (Var 1 - Num (1#1)) * Num (27#50)))]].
(** sources/nepheline.c 754: macro fillD2GDSDT *)
Definition oNph_d2gdsdt :=
  [Num (83143#10000) * (Num (3#4) * Log 0 - Num (3#4) * Log 2 - Num (3#4) * Log 3 + Num (3#4) * Log 5) - Num (-2929#400) - Num (753#160) * Var 40 + Num (251#40) * Var 2 - Num (3347#800) * Var 3 + Num (-15063#100) * Var 4 / Num (24#1)].
(** sources/nepheline.c 755: macro fillD2GDSDP *)
Definition oNph_d2gdsdp :=
  [Num (-33#80) + Num (-351#800) * Var 40 - Num (9#40) * Var 2 + Num (-93#800) * Var 3 + Num (567#100) * Var 4 / Num (24#1)].
(** sources/nepheline.c 757: macro fillD3GDR3 *)
Definition oNph_d3gdr3 :=
  [[[Num (-83143#10000) * Var 0 * (Num (1#1) / (Site 0 * Site 0) - Num (1#1) / (Site 2 * Site 2) + Num (3#1) / (Site 3 * Site 3) - Num (3#1) / (Site 5 * Site 5));
    Num (83143#10000) * Var 0 / (Site 2 * Site 2);
    Num (83143#10000) * Var 0 * (Num (1#1) / (Site 2 * Site 2) + Num (1#1) / (Site 5 * Site 5))];
    [Num (83143#10000) * Var 0 / (Site 2 * Site 2);
    Num (83143#10000) * Var 0 / (Site 2 * Site 2);
    Num (83143#10000) * Var 0 / (Site 2 * Site 2)];
    [Num (83143#10000) * Var 0 * (Num (1#1) / (Site 2 * Site 2) + Num (1#1) / (Site 5 * Site 5));
    Num (83143#10000) * Var 0 / (Site 2 * Site 2);
    Num (83143#10000) * Var 0 * (Num (1#1) / (Site 2 * Site 2) + Num (1#1) / (Num (3#1) * Site 5 * Site 5))]];
    [[Num (83143#10000) * Var 0 / (Site 2 * Site 2);
    Num (83143#10000) * Var 0 / (Site 2 * Site 2);
    Num (83143#10000) * Var 0 / (Site 2 * Site 2)];
    [Num (83143#10000) * Var 0 / (Site 2 * Site 2);
    Num (-83143#10000) * Var 0 * (Num (1#1) / (Site 1 * Site 1) - Num (1#1) / (Site 2 * Site 2)) - Num (3#33554432) / (Site 7 * Site 7 * Site 7 * Site 7);
    Num (83143#10000) * Var 0 * (Num (-1#1) / (Site 1 * Site 1) + Num (1#1) / (Site 2 * Site 2))];
    [Num (83143#10000) * Var 0 / (Site 2 * Site 2);
    Num (83143#10000) * Var 0 * (Num (-1#1) / (Site 1 * Site 1) + Num (1#1) / (Site 2 * Site 2));
    Num (83143#10000) * Var 0 * (Num (-1#1) / (Site 1 * Site 1) + Num (1#1) / (Site 2 * Site 2))]];
    [[Num (83143#10000) * Var 0 * (Num (1#1) / (Site 2 * Site 2) + Num (1#1) / (Site 5 * Site 5));
    Num (83143#10000) * Var 0 / (Site 2 * Site 2);
    Num (83143#10000) * Var 0 * (Num (1#1) / (Site 2 * Site 2) + Num (1#1) / (Num (3#1) * Site 5 * Site 5))];
    [Num (83143#10000) * Var 0 / (Site 2 * Site 2);
    Num (83143#10000) * Var 0 * (Num (-1#1) / (Site 1 * Site 1) + Num (1#1) / (Site 2 * Site 2));
    Num (83143#10000) * Var 0 * (Num (-1#1) / (Site 1 * Site 1) + Num (1#1) / (Site 2 * Site 2))];
    [Num (83143#10000) * Var 0 * (Num (1#1) / (Site 2 * Site 2) + Num (1#1) / (Num (3#1) * Site 5 * Site 5));
    Num (83143#10000) * Var 0 * (Num (-1#1) / (Site 1 * Site 1) + Num (1#1) / (Site 2 * Site 2));
    Num (83143#10000) * Var 0 * (Num (-1#1) / (Site 1 * Site 1) + Num (1#1) / (Site 2 * Site 2) - Num (1#1) / (Site 6 * Site 6) - Num (1#1) / (Num (3#1) * Site 4 * (Num (3#1) * Site 4)) + Num (1#1) / (Num (3#1) * Site 5 * (Num (3#1) * Site 5)))]]].
(** sources/nepheline.c 768: macro fillD3GDR2DS *)
Definition oNph_d3gdr2ds :=
  [[[Num (-83143#10000) * Var 0 * (Num (3#4) / (Site 0 * Site 0) - Num (3#4) / (Site 2 * Site 2) - Num (3#4) / (Site 3 * Site 3) + Num (3#4) / (Site 5 * Site 5))];
    [Num (83143#10000) * Var 0 * Num (3#4) / (Site 2 * Site 2)];
    [Num (83143#10000) * Var 0 * (Num (3#4) / (Site 2 * Site 2) - Num (1#4) / (Site 5 * Site 5))]];
    [[Num (83143#10000) * Var 0 * Num (3#4) / (Site 2 * Site 2)];
    [Num (83143#10000) * Var 0 * Num (3#4) / (Site 2 * Site 2)];
    [Num (83143#10000) * Var 0 * Num (3#4) / (Site 2 * Site 2)]];
    [[Num (83143#10000) * Var 0 * (Num (3#4) / (Site 2 * Site 2) - Num (1#4) / (Site 5 * Site 5))];
    [Num (83143#10000) * Var 0 * Num (3#4) / (Site 2 * Site 2)];
    [Num (83143#10000) * Var 0 * (Num (3#4) / (Site 2 * Site 2) - Num (1#4) / (Num (3#1) * Site 5 * Site 5))]]].
(** sources/nepheline.c 773: macro fillD3GDR2DT *)
Definition oNph_d3gdr2dt :=
  [[Num (83143#10000) * (Num (1#1) / Site 0 + Num (1#1) / Site 2 + Num (3#1) / Site 3 + Num (3#1) / Site 5) + Num (251#10);
    Num (83143#10000) / Site 2 - Num (-3347#200);
    Num (83143#10000) * (Num (1#1) / Site 2 + Num (1#1) / Site 5) + Num (2789#200)];
    [Num (83143#10000) / Site 2 - Num (-3347#200);
    Num (83143#10000) * (Num (1#1) / Site 1 + Num (1#1) / Site 2);
    Num (83143#10000) * (Num (1#1) / Site 1 + Num (1#1) / Site 2)];
    [Num (83143#10000) * (Num (1#1) / Site 2 + Num (1#1) / Site 5) + Num (2789#200);
    Num (83143#10000) * (Num (1#1) / Site 1 + Num (1#1) / Site 2);
    Num (83143#10000) * (Num (1#1) / Site 1 + Num (1#1) / Site 2 - Num (1#1) / Site 6 + Num (1#1) / (Num (3#1) * Site 4) + Num (1#1) / (Num (3#1) * Site 5))]].
(** sources/nepheline.c 778: macro fillD3GDR2DP *)
Definition oNph_d3gdr2dp :=
  [[Num (-87#50);
    Num (-171#200);
    Num (-5#8)];
    [Num (-171#200);
    Num (0#1);
    Num (0#1)];
    [Num (-5#8);
    Num (0#1);
    Num (0#1)]].
(** sources/nepheline.c 783: macro fillD3GDRDS2 *)
Definition oNph_d3gdrds2 :=
  [[[Num (-83143#10000) * Var 0 * (Num (9#16) / (Site 0 * Site 0) - Num (9#16) / (Site 2 * Site 2) + Num (3#16) / (Site 3 * Site 3) - Num (3#16) / (Site 5 * Site 5))]];
    [[Num (83143#10000) * Var 0 * Num (3#4) * Num (3#4) / (Site 2 * Site 2)]];
    [[Num (83143#10000) * Var 0 * (Num (9#16) / (Site 2 * Site 2) + Num (1#16) / (Site 5 * Site 5))]]].
(** sources/nepheline.c 786: macro fillD3GDRDSDT *)
Definition oNph_d3gdrdsdt :=
  [[Num (83143#10000) * (Num (3#4) / Site 0 + Num (3#4) / Site 2 - Num (3#4) / Site 3 - Num (3#4) / Site 5) + Num (251#40)];
    [Num (249429#40000) / Site 2 - Num (3347#800)];
    [Num (83143#10000) * (Num (3#4) / Site 2 - Num (1#4) / Site 5) + Num (-5021#800)]].
(** sources/nepheline.c 789: macro fillD3GDRDSDP *)
Definition oNph_d3gdrdsdp :=
  [[Num (-9#40)];
    [Num (-93#800)];
    [Num (189#800)]].
(** sources/nepheline.c 792: macro fillD3GDS3 *)
Definition oNph_d3gds3 :=
  [[[Num (-83143#10000) * Var 0 * (Num (27#64) / (Site 0 * Site 0) - Num (27#64) / (Site 2 * Site 2) - Num (3#64) / (Site 3 * Site 3) + Num (3#64) / (Site 5 * Site 5))]]].
(** sources/nepheline.c 793: macro fillD3GDS2DT *)
Definition oNph_d3gds2dt :=
  [[Num (83143#10000) * (Num (9#16) / Site 0 + Num (9#16) / Site 2 + Num (3#16) / Site 3 + Num (3#16) / Site 5) - Num (753#160)]].
(** sources/nepheline.c 794: macro fillD3GDS2DP *)
Definition oNph_d3gds2dp :=
  [[Num (-351#800)]].
(** sources/nepheline.c 795: macro fillD3GDSDT2 *)
Definition oNph_d3gdsdt2 :=
  [Num (0#1)].
(** sources/nepheline.c 796: macro fillD3GDSDTDP *)
Definition oNph_d3gdsdtdp :=
  [Num (0#1)].
(** sources/nepheline.c 797: macro fillD3GDSDP2 *)
Definition oNph_d3gdsdp2 :=
  [Num (0#1)].
(** sources/nepheline.c 798: macro fillD3GDRDT2 *)
Definition oNph_d3gdrdt2 :=
  [Num (0#1);
    Num (0#1);
    Num (0#1)].
(** sources/nepheline.c 799: macro fillD3GDRDTDP *)
Definition oNph_d3gdrdtdp :=
  [Num (0#1);
    Num (0#1);
    Num (0#1)].
(** sources/nepheline.c 800: macro fillD3GDRDP2 *)
Definition oNph_d3gdrdp2 :=
  [Num (0#1);
    Num (0#1);
    Num (0#1)].
(** sources/nepheline.c 632: macro D2GDT2 *)
Definition oNph_D2GDT2 :=
  Num (0#1).
(** sources/nepheline.c 633: macro D2GDTDP *)
Definition oNph_D2GDTDP :=
  Num (0#1).
(** sources/nepheline.c 634: macro D2GDP2 *)
Definition oNph_D2GDP2 :=
  Num (0#1).
(** sources/nepheline.c 726: macro D3GDT3 *)
Definition oNph_D3GDT3 :=
  Num (0#1).
(** sources/nepheline.c 727: macro D3GDT2DP *)
Definition oNph_D3GDT2DP :=
  Num (0#1).
(** sources/nepheline.c 728: macro D3GDTDP2 *)
Definition oNph_D3GDTDP2 :=
  Num (0#1).
(** sources/nepheline.c 729: macro D3GDP3 *)
Definition oNph_D3GDP3 :=
  Num (0#1).
(** sources/nepheline.c, order: the site fractions and their clamps *)
Definition oNph_sites := [mkSite (Var 2 + Num (3#1) * Var 40 / Num (4#1)) Both;
    mkSite (Var 3 + Var 4) Both;
    mkSite (Num (1#1) - Var 2 - Var 3 - Var 4 - Num (3#1) * Var 40 / Num (4#1)) Both;
    mkSite (Var 2 - Var 40 / Num (4#1)) Both;
    mkSite (Var 4 / Num (3#1)) Third;
    mkSite (Num (1#1) - Var 2 - Var 4 / Num (3#1) + Var 40 / Num (4#1)) Both;
    mkSite (Num (1#1) - Num (3#1) * (Var 4 / Num (3#1))) Free;
    mkSite (Var 3) Free].
Definition oNph := mkOrd "nepheline" 4 3 1 LU false oNph_sites None oNph_g oNph_s oNph_v oNph_r1 oNph_s1
  oNph_d2gdr2 oNph_d2gdrds oNph_d2gdrdt oNph_d2gdrdp oNph_d2gds2 oNph_d2gdsdt oNph_d2gdsdp oNph_d3gdr3 oNph_d3gdr2ds oNph_d3gdr2dt oNph_d3gdr2dp oNph_d3gdrds2 oNph_d3gdrdsdt oNph_d3gdrdsdp oNph_d3gds3 oNph_d3gds2dt oNph_d3gds2dp oNph_d3gdsdt2 oNph_d3gdsdtdp oNph_d3gdsdp2 oNph_d3gdrdt2 oNph_d3gdrdtdp oNph_d3gdrdp2 oNph_D2GDT2 oNph_D2GDTDP oNph_D2GDP2 oNph_D3GDT3 oNph_D3GDT2DP oNph_D3GDTDP2 oNph_D3GDP3.
(** sources/olivine.c 994: macro G *)
Definition oOlv_g :=
  Num (1#4) * (Num (-14000#1) - Num (2#1) * (Num (10150#1) + (Var 1 - Num (1#1)) * Num (3#200) + Num (5075#1) + Num (5075#1)) - Num (12000#1) - Num (8800#1)) + Num (1#4) * (Num (-66000#1) - (Num (10150#1) + (Var 1 - Num (1#1)) * Num (3#200) + Num (5075#1) + Num (5075#1)) - Num (6000#1) - Num (4400#1) + Num (4000#1)) * Var 2 + Num (1#4) * (Num (-22000#1) - Num (3#1) * (Num (10150#1) + (Var 1 - Num (1#1)) * Num (3#200) + Num (5075#1) + Num (5075#1)) - Num (6000#1) - Num (4400#1) + Num (4000#1) + Num (6000#1) + Num (20000#1)) * Var 3 + Num (1#4) * (Num (-22000#1) - (Num (10150#1) + (Var 1 - Num (1#1)) * Num (3#200) + Num (5075#1) + Num (5075#1)) - Num (18000#1) - Num (4400#1) + Num (6000#1)) * Var 4 + Num (1#4) * (Num (-22000#1) - (Num (10150#1) + (Var 1 - Num (1#1)) * Num (3#200) + Num (5075#1) + Num (5075#1)) - Num (6000#1) - Num (13200#1) + Num (20000#1)) * Var 5 + ((- (Num (34500#1) + (Var 1 - Num (1#1)) * Num (7#20))) - Num (1#4) * (Num (15300#1) + (Num (9500#1) + (Num (10150#1) + (Var 1 - Num (1#1)) * Num (3#200)) - Num (43800#1) + Num (10150#1)) + Num (-69000#1) + Num (-91950#1))) * Var 6 + Num (17675#2) * Var 40 + Num (3675#2) * Var 41 + Num (7225#2) * Var 42 + Num (5375#2) * Var 43 + Num (-5500#1) * Var 2 * Var 2 + Num (1#4) * (Num (-18000#1) - (Num (10150#1) + (Var 1 - Num (1#1)) * Num (3#200) + Num (5075#1) + Num (5075#1))) * Var 2 * Var 3 + Num (-7000#1) * Var 2 * Var 4 + Num (-6600#1) * Var 2 * Var 5 + Num (-1#4) * (Num (34050#1) + Num (2#1) * (Num (34500#1) + (Var 1 - Num (1#1)) * Num (7#20)) - Num (32000#1) + Num (13250#1)) * Var 2 * Var 6 + Num (-1000#1) * Var 2 * Var 41 + Num (7700#1) * Var 2 * Var 42 + Num (19475#2) * Var 2 * Var 43 + Num (-1#4) * (Num (10150#1) + (Var 1 - Num (1#1)) * Num (3#200) + Num (5075#1) + Num (5075#1)) * Var 3 * Var 3 + Num (1#4) * (Num (6000#1) - (Num (10150#1) + (Var 1 - Num (1#1)) * Num (3#200) + Num (5075#1) + Num (5075#1)) - Num (6000#1)) * Var 3 * Var 4 + Num (1#4) * (Num (20000#1) - (Num (10150#1) + (Var 1 - Num (1#1)) * Num (3#200) + Num (5075#1) + Num (5075#1)) - Num (4400#1)) * Var 3 * Var 5 + Num (-1#4) * (Num (9500#1) + (Num (10150#1) + (Var 1 - Num (1#1)) * Num (3#200)) + Num (2#1) * (Num (34500#1) + (Var 1 - Num (1#1)) * Num (7#20)) - Num (43800#1) + Num (10150#1)) * Var 3 * Var 6 + Num (1000#1) * Var 3 * Var 40 + Num (3750#1) * Var 3 * Var 42 + Num (1575#2) * Var 3 * Var 43 + Num (-1500#1) * Var 4 * Var 4 + Num (-2600#1) * Var 4 * Var 5 + Num (-1#4) * (Num (-12000#1) + Num (2#1) * (Num (34500#1) + (Var 1 - Num (1#1)) * Num (7#20)) - Num (60000#1) + Num (3000#1)) * Var 4 * Var 6 + Num (7700#1) * Var 4 * Var 40 + Num (3750#1) * Var 4 * Var 41 + Num (675#2) * Var 4 * Var 43 + Num (-1100#1) * Var 5 * Var 5 + Num (-1#4) * (Num (-17550#1) + Num (2#1) * (Num (34500#1) + (Var 1 - Num (1#1)) * Num (7#20)) - Num (80000#1) + Num (5600#1)) * Var 5 * Var 6 + Num (16075#2) * Var 5 * Var 40 + Num (-1825#2) * Var 5 * Var 41 + Num (-675#2) * Var 5 * Var 42 + Num (1700#1) * Var 5 * Var 43 + Num (-1#1) * (Num (34500#1) + (Var 1 - Num (1#1)) * Num (7#20)) * Var 6 * Var 6 + Num (1#4) * (Num (34050#1) - Num (2#1) * (Num (34500#1) + (Var 1 - Num (1#1)) * Num (7#20)) + Num (32000#1) - Num (13250#1)) * Var 6 * Var 40 + Num (1#4) * (Num (9500#1) + (Num (10150#1) + (Var 1 - Num (1#1)) * Num (3#200)) - Num (2#1) * (Num (34500#1) + (Var 1 - Num (1#1)) * Num (7#20)) + Num (43800#1) - Num (10150#1)) * Var 6 * Var 41 + Num (-1#4) * (Num (-12000#1) - Num (2#1) * (Num (34500#1) + (Var 1 - Num (1#1)) * Num (7#20)) + Num (60000#1) - Num (3000#1)) * Var 6 * Var 42 + Num (-1#4) * (Num (-17550#1) - Num (2#1) * (Num (34500#1) + (Var 1 - Num (1#1)) * Num (7#20)) + Num (80000#1) - Num (5600#1)) * Var 6 * Var 43 + Num (-1125#1) * Var 40 * Var 40 + Num (1#4) * (Num (-4500#1) + (Num (10150#1) + (Var 1 - Num (1#1)) * Num (3#200) - Num (5075#1) - Num (5075#1)) - Num (-3000#1)) * Var 40 * Var 41 + Num (1125#1) * Var 40 * Var 42 + Num (1125#1) * Var 40 * Var 43 + Num (1#4) * (Num (10150#1) + (Var 1 - Num (1#1)) * Num (3#200) - Num (5075#1) - Num (5075#1)) * Var 41 * Var 41 + Num (1#4) * (- (Num (10150#1) + (Var 1 - Num (1#1)) * Num (3#200) - Num (5075#1) - Num (5075#1))) * Var 41 * Var 42 + Num (1#4) * (- (Num (10150#1) + (Var 1 - Num (1#1)) * Num (3#200) - Num (5075#1) - Num (5075#1))) * Var 41 * Var 43 - Var 0 * (Num (-83143#10000) * (Site 0 * Log 0 + Site 1 * Log 1 + Site 2 * Log 2 + Site 3 * Log 3 + Site 4 * Log 4 + Site 5 * Log 5 + Site 6 * Log 6 + Site 7 * Log 7 + Site 8 * Log 8 + Site 9 * Log 9 + Site 10 * Log 10)).
(** sources/olivine.c 949: macro S *)
Definition oOlv_s :=
  Num (-83143#10000) * (Site 0 * Log 0 + Site 1 * Log 1 + Site 2 * Log 2 + Site 3 * Log 3 + Site 4 * Log 4 + Site 5 * Log 5 + Site 6 * Log 6 + Site 7 * Log 7 + Site 8 * Log 8 + Site 9 * Log 9 + Site 10 * Log 10).
(** sources/olivine.c 1035: macro DGDP *)
Definition oOlv_v :=
  Num (-3#400) + Num (-3#800) * Var 2 + Num (-9#800) * Var 3 + Num (-3#800) * Var 4 + Num (-3#800) * Var 5 + Num (-283#800) * Var 6 + Num (-3#800) * Var 2 * Var 3 + Num (-7#40) * Var 2 * Var 6 + Num (-3#800) * Var 3 * Var 3 + Num (-3#800) * Var 3 * Var 4 + Num (-3#800) * Var 3 * Var 5 + Num (-143#800) * Var 3 * Var 6 + Num (-7#40) * Var 4 * Var 6 + Num (-7#40) * Var 5 * Var 6 + Num (-7#20) * Var 6 * Var 6 + Num (-7#40) * Var 6 * Var 40 + Num (-137#800) * Var 6 * Var 41 + Num (7#40) * Var 6 * Var 42 + Num (7#40) * Var 6 * Var 43 + Num (3#800) * Var 40 * Var 41 + Num (3#800) * Var 41 * Var 41 + Num (-3#800) * Var 41 * Var 42 + Num (-3#800) * Var 41 * Var 43.
(** sources/olivine.c 998-1014: macros DGDRi *)
Definition oOlv_r1 :=
  [Num (1#4) * (Num (-66000#1) - (Num (10150#1) + (Var 1 - Num (1#1)) * Num (3#200) + Num (5075#1) + Num (5075#1)) - Num (6000#1) - Num (4400#1) + Num (4000#1)) + Num (-11000#1) * Var 2 + Num (1#4) * (Num (-18000#1) - (Num (10150#1) + (Var 1 - Num (1#1)) * Num (3#200) + Num (5075#1) + Num (5075#1))) * Var 3 + Num (-7000#1) * Var 4 + Num (-6600#1) * Var 5 + Num (-1#4) * (Num (34050#1) + Num (2#1) * (Num (34500#1) + (Var 1 - Num (1#1)) * Num (7#20)) - Num (32000#1) + Num (13250#1)) * Var 6 + Num (-1000#1) * Var 41 + Num (7700#1) * Var 42 + Num (19475#2) * Var 43 + Num (83143#20000) * Var 0 * (Log 0 + Log 1 - Log 9 - Log 10);
    Num (1#4) * (Num (-22000#1) - Num (3#1) * (Num (10150#1) + (Var 1 - Num (1#1)) * Num (3#200) + Num (5075#1) + Num (5075#1)) - Num (6000#1) - Num (4400#1) + Num (4000#1) + Num (6000#1) + Num (20000#1)) + Num (2#1) * (Num (-1#4) * (Num (10150#1) + (Var 1 - Num (1#1)) * Num (3#200) + Num (5075#1) + Num (5075#1))) * Var 3 + Num (1#4) * (Num (-18000#1) - (Num (10150#1) + (Var 1 - Num (1#1)) * Num (3#200) + Num (5075#1) + Num (5075#1))) * Var 2 + Num (1#4) * (Num (6000#1) - (Num (10150#1) + (Var 1 - Num (1#1)) * Num (3#200) + Num (5075#1) + Num (5075#1)) - Num (6000#1)) * Var 4 + Num (1#4) * (Num (20000#1) - (Num (10150#1) + (Var 1 - Num (1#1)) * Num (3#200) + Num (5075#1) + Num (5075#1)) - Num (4400#1)) * Var 5 + Num (-1#4) * (Num (9500#1) + (Num (10150#1) + (Var 1 - Num (1#1)) * Num (3#200)) + Num (2#1) * (Num (34500#1) + (Var 1 - Num (1#1)) * Num (7#20)) - Num (43800#1) + Num (10150#1)) * Var 6 + Num (1000#1) * Var 40 + Num (3750#1) * Var 42 + Num (1575#2) * Var 43 + Num (83143#20000) * Var 0 * (Log 2 + Log 3 - Log 9 - Log 10);
    Num (1#4) * (Num (-22000#1) - (Num (10150#1) + (Var 1 - Num (1#1)) * Num (3#200) + Num (5075#1) + Num (5075#1)) - Num (18000#1) - Num (4400#1) + Num (6000#1)) + Num (-3000#1) * Var 4 + Num (-7000#1) * Var 2 + Num (1#4) * (Num (6000#1) - (Num (10150#1) + (Var 1 - Num (1#1)) * Num (3#200) + Num (5075#1) + Num (5075#1)) - Num (6000#1)) * Var 3 + Num (-2600#1) * Var 5 + Num (-1#4) * (Num (-12000#1) + Num (2#1) * (Num (34500#1) + (Var 1 - Num (1#1)) * Num (7#20)) - Num (60000#1) + Num (3000#1)) * Var 6 + Num (7700#1) * Var 40 + Num (3750#1) * Var 41 + Num (675#2) * Var 43 + Num (83143#20000) * Var 0 * (Log 4 + Log 5 - Log 9 - Log 10);
    Num (1#4) * (Num (-22000#1) - (Num (10150#1) + (Var 1 - Num (1#1)) * Num (3#200) + Num (5075#1) + Num (5075#1)) - Num (6000#1) - Num (13200#1) + Num (20000#1)) + Num (-2200#1) * Var 5 + Num (-6600#1) * Var 2 + Num (1#4) * (Num (20000#1) - (Num (10150#1) + (Var 1 - Num (1#1)) * Num (3#200) + Num (5075#1) + Num (5075#1)) - Num (4400#1)) * Var 3 + Num (-2600#1) * Var 4 + Num (-1#4) * (Num (-17550#1) + Num (2#1) * (Num (34500#1) + (Var 1 - Num (1#1)) * Num (7#20)) - Num (80000#1) + Num (5600#1)) * Var 6 + Num (16075#2) * Var 40 + Num (-1825#2) * Var 41 + Num (-675#2) * Var 42 + Num (1700#1) * Var 43 + Num (83143#20000) * Var 0 * (Log 6 + Log 7 - Log 9 - Log 10);
    (- (Num (34500#1) + (Var 1 - Num (1#1)) * Num (7#20))) - Num (1#4) * (Num (15300#1) + (Num (9500#1) + (Num (10150#1) + (Var 1 - Num (1#1)) * Num (3#200)) - Num (43800#1) + Num (10150#1)) + Num (-69000#1) + Num (-91950#1)) + Num (2#1) * (Num (-1#1) * (Num (34500#1) + (Var 1 - Num (1#1)) * Num (7#20))) * Var 6 + Num (-1#4) * (Num (34050#1) + Num (2#1) * (Num (34500#1) + (Var 1 - Num (1#1)) * Num (7#20)) - Num (32000#1) + Num (13250#1)) * Var 2 + Num (-1#4) * (Num (9500#1) + (Num (10150#1) + (Var 1 - Num (1#1)) * Num (3#200)) + Num (2#1) * (Num (34500#1) + (Var 1 - Num (1#1)) * Num (7#20)) - Num (43800#1) + Num (10150#1)) * Var 3 + Num (-1#4) * (Num (-12000#1) + Num (2#1) * (Num (34500#1) + (Var 1 - Num (1#1)) * Num (7#20)) - Num (60000#1) + Num (3000#1)) * Var 4 + Num (-1#4) * (Num (-17550#1) + Num (2#1) * (Num (34500#1) + (Var 1 - Num (1#1)) * Num (7#20)) - Num (80000#1) + Num (5600#1)) * Var 5 + Num (1#4) * (Num (34050#1) - Num (2#1) * (Num (34500#1) + (Var 1 - Num (1#1)) * Num (7#20)) + Num (32000#1) - Num (13250#1)) * Var 40 + Num (1#4) * (Num (9500#1) + (Num (10150#1) + (Var 1 - Num (1#1)) * Num (3#200)) - Num (2#1) * (Num (34500#1) + (Var 1 - Num (1#1)) * Num (7#20)) + Num (43800#1) - Num (10150#1)) * Var 41 + Num (-1#4) * (Num (-12000#1) - Num (2#1) * (Num (34500#1) + (Var 1 - Num (1#1)) * Num (7#20)) + Num (60000#1) - Num (3000#1)) * Var 42 + Num (-1#4) * (Num (-17550#1) - Num (2#1) * (Num (34500#1) + (Var 1 - Num (1#1)) * Num (7#20)) + Num (80000#1) - Num (5600#1)) * Var 43 + Num (83143#10000) * Var 0 * (Log 8 - Log 10)].
(** sources/olivine.c 1018-1030: macros DGDSi *)
Definition oOlv_s1 :=
  [Num (17675#2) + Num (-2250#1) * Var 40 + Num (1000#1) * Var 3 + Num (7700#1) * Var 4 + Num (16075#2) * Var 5 + Num (1#4) * (Num (34050#1) - Num (2#1) * (Num (34500#1) + (Var 1 - Num (1#1)) * Num (7#20)) + Num (32000#1) - Num (13250#1)) * Var 6 + Num (1#4) * (Num (-4500#1) + (Num (10150#1) + (Var 1 - Num (1#1)) * Num (3#200) - Num (5075#1) - Num (5075#1)) - Num (-3000#1)) * Var 41 + Num (1125#1) * Var 42 + Num (1125#1) * Var 43 + Num (83143#20000) * Var 0 * (Log 1 + Log 9 - Log 0 - Log 10);
    Num (3675#2) + Num (2#1) * (Num (1#4) * (Num (10150#1) + (Var 1 - Num (1#1)) * Num (3#200) - Num (5075#1) - Num (5075#1))) * Var 41 + Num (-1000#1) * Var 2 + Num (3750#1) * Var 4 + Num (-1825#2) * Var 5 + Num (1#4) * (Num (9500#1) + (Num (10150#1) + (Var 1 - Num (1#1)) * Num (3#200)) - Num (2#1) * (Num (34500#1) + (Var 1 - Num (1#1)) * Num (7#20)) + Num (43800#1) - Num (10150#1)) * Var 6 + Num (1#4) * (Num (-4500#1) + (Num (10150#1) + (Var 1 - Num (1#1)) * Num (3#200) - Num (5075#1) - Num (5075#1)) - Num (-3000#1)) * Var 40 + Num (1#4) * (- (Num (10150#1) + (Var 1 - Num (1#1)) * Num (3#200) - Num (5075#1) - Num (5075#1))) * Var 42 + Num (1#4) * (- (Num (10150#1) + (Var 1 - Num (1#1)) * Num (3#200) - Num (5075#1) - Num (5075#1))) * Var 43 + Num (83143#20000) * Var 0 * (Log 3 + Log 9 - Log 2 - Log 10);
    Num (7225#2) + Num (7700#1) * Var 2 + Num (3750#1) * Var 3 + Num (-675#2) * Var 5 + Num (-1#4) * (Num (-12000#1) - Num (2#1) * (Num (34500#1) + (Var 1 - Num (1#1)) * Num (7#20)) + Num (60000#1) - Num (3000#1)) * Var 6 + Num (1125#1) * Var 40 + Num (1#4) * (- (Num (10150#1) + (Var 1 - Num (1#1)) * Num (3#200) - Num (5075#1) - Num (5075#1))) * Var 41 + Num (83143#20000) * Var 0 * (Log 4 + Log 10 - Log 5 - Log 9);
    Num (5375#2) + Num (19475#2) * Var 2 + Num (1575#2) * Var 3 + Num (675#2) * Var 4 + Num (1700#1) * Var 5 + Num (-1#4) * (Num (-17550#1) - Num (2#1) * (Num (34500#1) + (Var 1 - Num (1#1)) * Num (7#20)) + Num (80000#1) - Num (5600#1)) * Var 6 + Num (1125#1) * Var 40 + Num (1#4) * (- (Num (10150#1) + (Var 1 - Num (1#1)) * Num (3#200) - Num (5075#1) - Num (5075#1))) * Var 41 + Num (83143#20000) * Var 0 * (Log 6 + Log 10 - Log 7 - Log 9)].
(** sources/olivine.c 1482: macro fillD2GDR2 *)
Definition oOlv_d2gdr2 :=
  [[Num (-11000#1) + Num (83143#40000) * Var 0 * (Num (1#1) / Site 0 + Num (1#1) / Site 1 + Num (1#1) / Site 9 + Num (1#1) / Site 10);
    Num (1#4) * (Num (-18000#1) - (Num (10150#1) + (Var 1 - Num (1#1)) * Num (3#200) + Num (5075#1) + Num (5075#1))) + Num (83143#40000) * Var 0 * (Num (1#1) / Site 9 + Num (1#1) / Site 10);
    Num (-7000#1) + Num (83143#40000) * Var 0 * (Num (1#1) / Site 9 + Num (1#1) / Site 10);
    Num (-6600#1) + Num (83143#40000) * Var 0 * (Num (1#1) / Site 9 + Num (1#1) / Site 10);
    Num (-1#4) * (Num (34050#1) + Num (2#1) * (Num (34500#1) + (Var 1 - Num (1#1)) * Num (7#20)) - Num (32000#1) + Num (13250#1)) + Num (83143#20000) * Var 0 * (Num (1#1) / Site 10)];
    [Num (1#4) * (Num (-18000#1) - (Num (10150#1) + (Var 1 - Num (1#1)) * Num (3#200) + Num (5075#1) + Num (5075#1))) + Num (83143#40000) * Var 0 * (Num (1#1) / Site 9 + Num (1#1) / Site 10);
    Num (2#1) * (Num (-1#4) * (Num (10150#1) + (Var 1 - Num (1#1)) * Num (3#200) + Num (5075#1) + Num (5075#1))) + Num (83143#40000) * Var 0 * (Num (1#1) / Site 2 + Num (1#1) / Site 3 + Num (1#1) / Site 9 + Num (1#1) / Site 10);
    Num (1#4) * (Num (6000#1) - (Num (10150#1) + (Var 1 - Num (1#1)) * Num (3#200) + Num (5075#1) + Num (5075#1)) - Num (6000#1)) + Num (83143#40000) * Var 0 * (Num (1#1) / Site 9 + Num (1#1) / Site 10);
    Num (1#4) * (Num (20000#1) - (Num (10150#1) + (Var 1 - Num (1#1)) * Num (3#200) + Num (5075#1) + Num (5075#1)) - Num (4400#1)) + Num (83143#40000) * Var 0 * (Num (1#1) / Site 9 + Num (1#1) / Site 10);
    Num (-1#4) * (Num (9500#1) + (Num (10150#1) + (Var 1 - Num (1#1)) * Num (3#200)) + Num (2#1) * (Num (34500#1) + (Var 1 - Num (1#1)) * Num (7#20)) - Num (43800#1) + Num (10150#1)) + Num (83143#20000) * Var 0 * (Num (1#1) / Site 10)];
    [Num (-7000#1) + Num (83143#40000) * Var 0 * (Num (1#1) / Site 9 + Num (1#1) / Site 10);
    Num (1#4) * (Num (6000#1) - (Num (10150#1) + (Var 1 - Num (1#1)) * Num (3#200) + Num (5075#1) + Num (5075#1)) - Num (6000#1)) + Num (83143#40000) * Var 0 * (Num (1#1) / Site 9 + Num (1#1) / Site 10);
    Num (-3000#1) + Num (83143#40000) * Var 0 * (Num (1#1) / Site 4 + Num (1#1) / Site 5 + Num (1#1) / Site 9 + Num (1#1) / Site 10);
    Num (-2600#1) + Num (83143#40000) * Var 0 * (Num (1#1) / Site 9 + Num (1#1) / Site 10);
    Num (-1#4) * (Num (-12000#1) + Num (2#1) * (Num (34500#1) + (Var 1 - Num (1#1)) * Num (7#20)) - Num (60000#1) + Num (3000#1)) + Num (83143#20000) * Var 0 * (Num (1#1) / Site 10)];
    [Num (-6600#1) + Num (83143#40000) * Var 0 * (Num (1#1) / Site 9 + Num (1#1) / Site 10);
    Num (1#4) * (Num (20000#1) - (Num (10150#1) + (Var 1 - Num (1#1)) * Num (3#200) + Num (5075#1) + Num (5075#1)) - Num (4400#1)) + Num (83143#40000) * Var 0 * (Num (1#1) / Site 9 + Num (1#1) / Site 10);
    Num (-2600#1) + Num (83143#40000) * Var 0 * (Num (1#1) / Site 9 + Num (1#1) / Site 10);
    Num (-2200#1) + Num (83143#40000) * Var 0 * (Num (1#1) / Site 9 + Num (1#1) / Site 10 + Num (1#1) / Site 6 + Num (1#1) / Site 7);
    Num (-1#4) * (Num (-17550#1) + Num (2#1) * (Num (34500#1) + (Var 1 - Num (1#1)) * Num (7#20)) - Num (80000#1) + Num (5600#1)) + Num (83143#20000) * Var 0 * (Num (1#1) / Site 10)];
    [Num (-1#4) * (Num (34050#1) + Num (2#1) * (Num (34500#1) + (Var 1 - Num (1#1)) * Num (7#20)) - Num (32000#1) + Num (13250#1)) + Num (83143#20000) * Var 0 * (Num (1#1) / Site 10);
    Num (-1#4) * (Num (9500#1) + (Num (10150#1) + (Var 1 - Num (1#1)) * Num (3#200)) + Num (2#1) * (Num (34500#1) + (Var 1 - Num (1#1)) * Num (7#20)) - Num (43800#1) + Num (10150#1)) + Num (83143#20000) * Var 0 * (Num (1#1) / Site 10);
    Num (-1#4) * (Num (-12000#1) + Num (2#1) * (Num (34500#1) + (Var 1 - Num (1#1)) * Num (7#20)) - Num (60000#1) + Num (3000#1)) + Num (83143#20000) * Var 0 * (Num (1#1) / Site 10);
    Num (-1#4) * (Num (-17550#1) + Num (2#1) * (Num (34500#1) + (Var 1 - Num (1#1)) * Num (7#20)) - Num (80000#1) + Num (5600#1)) + Num (83143#20000) * Var 0 * (Num (1#1) / Site 10);
    Num (2#1) * (Num (-1#1) * (Num (34500#1) + (Var 1 - Num (1#1)) * Num (7#20))) + Num (83143#10000) * Var 0 * (Num (1#1) / Site 10 + Num (1#1) / Site 8)]].
(** sources/olivine.c 1499: macro fillD2GDRDS *)
Definition oOlv_d2gdrds :=
  [[Num (83143#40000) * Var 0 * (Num (-1#1) / Site 0 + Num (1#1) / Site 1 - Num (1#1) / Site 9 + Num (1#1) / Site 10);
    Num (-1000#1) + Num (83143#40000) * Var 0 * (Num (-1#1) / Site 9 + Num (1#1) / Site 10);
    Num (7700#1) + Num (83143#40000) * Var 0 * (Num (1#1) / Site 9 - Num (1#1) / Site 10);
    Num (19475#2) + Num (83143#40000) * Var 0 * (Num (1#1) / Site 9 - Num (1#1) / Site 10)];
    [Num (1000#1) + Num (83143#40000) * Var 0 * (Num (1#1) / Site 10 - Num (1#1) / Site 9);
    Num (83143#40000) * Var 0 * (Num (-1#1) / Site 2 + Num (1#1) / Site 3 - Num (1#1) / Site 9 + Num (1#1) / Site 10);
    Num (3750#1) + Num (83143#40000) * Var 0 * (Num (1#1) / Site 9 - Num (1#1) / Site 10);
    Num (1575#2) + Num (83143#40000) * Var 0 * (Num (1#1) / Site 9 - Num (1#1) / Site 10)];
    [Num (7700#1) + Num (83143#40000) * Var 0 * (Num (1#1) / Site 10 - Num (1#1) / Site 9);
    Num (3750#1) + Num (83143#40000) * Var 0 * (Num (1#1) / Site 10 - Num (1#1) / Site 9);
    Num (83143#40000) * Var 0 * (Num (1#1) / Site 4 - Num (1#1) / Site 5 + Num (1#1) / Site 9 - Num (1#1) / Site 10);
    Num (675#2) + Num (83143#40000) * Var 0 * (Num (1#1) / Site 9 - Num (1#1) / Site 10)];
    [Num (16075#2) + Num (83143#40000) * Var 0 * (Num (1#1) / Site 10 - Num (1#1) / Site 9);
    Num (-1825#2) + Num (83143#40000) * Var 0 * (Num (1#1) / Site 10 - Num (1#1) / Site 9);
    Num (-675#2) + Num (83143#40000) * Var 0 * (Num (1#1) / Site 9 - Num (1#1) / Site 10);
    Num (1700#1) + Num (83143#40000) * Var 0 * (Num (1#1) / Site 6 - Num (1#1) / Site 7 + Num (1#1) / Site 9 - Num (1#1) / Site 10)];
    [Num (1#4) * (Num (34050#1) - Num (2#1) * (Num (34500#1) + (Var 1 - Num (1#1)) * Num (7#20)) + Num (32000#1) - Num (13250#1)) + Num (83143#20000) * Var 0 * (Num (1#1) / Site 10);
    Num (1#4) * (Num (9500#1) + (Num (10150#1) + (Var 1 - Num (1#1)) * Num (3#200)) - Num (2#1) * (Num (34500#1) + (Var 1 - Num (1#1)) * Num (7#20)) + Num (43800#1) - Num (10150#1)) + Num (83143#20000) * Var 0 * (Num (1#1) / Site 10);
    Num (-1#4) * (Num (-12000#1) - Num (2#1) * (Num (34500#1) + (Var 1 - Num (1#1)) * Num (7#20)) + Num (60000#1) - Num (3000#1)) - Num (83143#20000) * Var 0 * (Num (1#1) / Site 10);
    Num (-1#4) * (Num (-17550#1) - Num (2#1) * (Num (34500#1) + (Var 1 - Num (1#1)) * Num (7#20)) + Num (80000#1) - Num (5600#1)) - Num (83143#20000) * Var 0 * (Num (1#1) / Site 10)]].
(** sources/olivine.c 1511: macro fillD2GDRDT *)
Definition oOlv_d2gdrdt :=
  [Num (83143#20000) * (Log 0 + Log 1 - Log 9 - Log 10);
    Num (83143#20000) * (Log 2 + Log 3 - Log 9 - Log 10);
    Num (83143#20000) * (Log 4 + Log 5 - Log 9 - Log 10);
    Num (83143#20000) * (Log 6 + Log 7 - Log 9 - Log 10);
    Num (83143#10000) * (Log 8 - Log 10)].
(** sources/olivine.c 1515: macro fillD2GDRDP *)
Definition oOlv_d2gdrdp :=
  [Num (-3#800) + Num (-3#800) * Var 3 + Num (-7#40) * Var 6;
    Num (-9#800) + Num (-3#400) * Var 3 + Num (-3#800) * Var 2 + Num (-3#800) * Var 4 + Num (-3#800) * Var 5 + Num (-143#800) * Var 6;
    Num (-3#800) + Num (-3#800) * Var 3 + Num (-7#40) * Var 6;
    Num (-3#800) + Num (-3#800) * Var 3 + Num (-7#40) * Var 6;
    Num (-283#800) + Num (-7#10) * Var 6 + Num (-7#40) * Var 2 + Num (-143#800) * Var 3 + Num (-7#40) * Var 4 + Num (-7#40) * Var 5 + Num (-7#40) * Var 40 + Num (-137#800) * Var 41 + Num (7#40) * Var 42 + Num (7#40) * Var 43].
(** sources/olivine.c 1519: macro fillD2GDS2 *)
Definition oOlv_d2gds2 :=
  [[Num (-2250#1) + Num (83143#40000) * Var 0 * (Num (1#1) / Site 0 + Num (1#1) / Site 1 + Num (1#1) / Site 9 + Num (1#1) / Site 10);
    Num (1#4) * (Num (-4500#1) + (Num (10150#1) + (Var 1 - Num (1#1)) * Num (3#200) - Num (5075#1) - Num (5075#1)) - Num (-3000#1)) + Num (83143#40000) * Var 0 * (Num (1#1) / Site 9 + Num (1#1) / Site 10);
    Num (1125#1) - Num (83143#40000) * Var 0 * (Num (1#1) / Site 9 + Num (1#1) / Site 10);
    Num (1125#1) - Num (83143#40000) * Var 0 * (Num (1#1) / Site 9 + Num (1#1) / Site 10)];
    [Num (1#4) * (Num (-4500#1) + (Num (10150#1) + (Var 1 - Num (1#1)) * Num (3#200) - Num (5075#1) - Num (5075#1)) - Num (-3000#1)) + Num (83143#40000) * Var 0 * (Num (1#1) / Site 9 + Num (1#1) / Site 10);
    Num (2#1) * (Num (1#4) * (Num (10150#1) + (Var 1 - Num (1#1)) * Num (3#200) - Num (5075#1) - Num (5075#1))) + Num (83143#40000) * Var 0 * (Num (1#1) / Site 2 + Num (1#1) / Site 3 + Num (1#1) / Site 9 + Num (1#1) / Site 10);
    Num (1#4) * (- (Num (10150#1) + (Var 1 - Num (1#1)) * Num (3#200) - Num (5075#1) - Num (5075#1))) - Num (83143#40000) * Var 0 * (Num (1#1) / Site 9 + Num (1#1) / Site 10);
    Num (1#4) * (- (Num (10150#1) + (Var 1 - Num (1#1)) * Num (3#200) - Num (5075#1) - Num (5075#1))) - Num (83143#40000) * Var 0 * (Num (1#1) / Site 9 + Num (1#1) / Site 10)];
    [Num (1125#1) - Num (83143#40000) * Var 0 * (Num (1#1) / Site 9 + Num (1#1) / Site 10);
    Num (1#4) * (- (Num (10150#1) + (Var 1 - Num (1#1)) * Num (3#200) - Num (5075#1) - Num (5075#1))) - Num (83143#40000) * Var 0 * (Num (1#1) / Site 9 + Num (1#1) / Site 10);
    Num (83143#40000) * Var 0 * (Num (1#1) / Site 4 + Num (1#1) / Site 5 + Num (1#1) / Site 9 + Num (1#1) / Site 10);
    Num (83143#40000) * Var 0 * (Num (1#1) / Site 9 + Num (1#1) / Site 10)];
    [Num (1125#1) - Num (83143#40000) * Var 0 * (Num (1#1) / Site 9 + Num (1#1) / Site 10);
    Num (1#4) * (- (Num (10150#1) + (Var 1 - Num (1#1)) * Num (3#200) - Num (5075#1) - Num (5075#1))) - Num (83143#40000) * Var 0 * (Num (1#1) / Site 9 + Num (1#1) / Site 10);
    Num (83143#40000) * Var 0 * (Num (1#1) / Site 9 + Num (1#1) / Site 10);
    Num (83143#40000) * Var 0 * (Num (1#1) / Site 6 + Num (1#1) / Site 7 + Num (1#1) / Site 9 + Num (1#1) / Site 10)]].
(** sources/olivine.c 1529: macro fillD2GDSDT *)
Definition oOlv_d2gdsdt :=
  [Num (83143#20000) * (Log 1 + Log 9 - Log 0 - Log 10);
    Num (83143#20000) * (Log 3 + Log 9 - Log 2 - Log 10);
    Num (83143#20000) * (Log 4 + Log 10 - Log 5 - Log 9);
    Num (83143#20000) * (Log 6 + Log 10 - Log 7 - Log 9)].
(** sources/olivine.c 1533: macro fillD2GDSDP *)
Definition oOlv_d2gdsdp :=
  [Num (-7#40) * Var 6 + Num (3#800) * Var 41;
    Num (3#400) * Var 41 + Num (-137#800) * Var 6 + Num (3#800) * Var 40 + Num (-3#800) * Var 42 + Num (-3#800) * Var 43;
    Num (7#40) * Var 6 + Num (-3#800) * Var 41;
    Num (7#40) * Var 6 + Num (-3#800) * Var 41].
(** sources/olivine.c 1537: macro fillD3GDR3 *)
Definition oOlv_d3gdr3 :=
  [[[Num (83143#80000) * Var 0 * (Num (-1#1) / (Site 0 * Site 0) + Num (1#1) / (Site 10 * Site 10) - Num (1#1) / (Site 1 * Site 1) + Num (1#1) / (Site 9 * Site 9));
    Num (83143#80000) * Var 0 * (Num (1#1) / (Site 9 * Site 9) + Num (1#1) / (Site 10 * Site 10));
    Num (83143#80000) * Var 0 * (Num (1#1) / (Site 9 * Site 9) + Num (1#1) / (Site 10 * Site 10));
    Num (83143#80000) * Var 0 * (Num (1#1) / (Site 9 * Site 9) + Num (1#1) / (Site 10 * Site 10));
    Num (83143#40000) * Var 0 * (Num (1#1) / (Site 10 * Site 10))];
    [Num (83143#80000) * Var 0 * (Num (1#1) / (Site 9 * Site 9) + Num (1#1) / (Site 10 * Site 10));
    Num (83143#80000) * Var 0 * (Num (1#1) / (Site 9 * Site 9) + Num (1#1) / (Site 10 * Site 10));
    Num (83143#80000) * Var 0 * (Num (1#1) / (Site 9 * Site 9) + Num (1#1) / (Site 10 * Site 10));
    Num (83143#80000) * Var 0 * (Num (1#1) / (Site 9 * Site 9) + Num (1#1) / (Site 10 * Site 10));
    Num (83143#40000) * Var 0 * (Num (1#1) / (Site 10 * Site 10))];
    [Num (83143#80000) * Var 0 * (Num (1#1) / (Site 9 * Site 9) + Num (1#1) / (Site 10 * Site 10));
    Num (83143#80000) * Var 0 * (Num (1#1) / (Site 9 * Site 9) + Num (1#1) / (Site 10 * Site 10));
    Num (83143#80000) * Var 0 * (Num (1#1) / (Site 9 * Site 9) + Num (1#1) / (Site 10 * Site 10));
    Num (83143#80000) * Var 0 * (Num (1#1) / (Site 9 * Site 9) + Num (1#1) / (Site 10 * Site 10));
    Num (83143#40000) * Var 0 * (Num (1#1) / (Site 10 * Site 10))];
    [Num (83143#80000) * Var 0 * (Num (1#1) / (Site 9 * Site 9) + Num (1#1) / (Site 10 * Site 10));
    Num (83143#80000) * Var 0 * (Num (1#1) / (Site 9 * Site 9) + Num (1#1) / (Site 10 * Site 10));
    Num (83143#80000) * Var 0 * (Num (1#1) / (Site 9 * Site 9) + Num (1#1) / (Site 10 * Site 10));
    Num (83143#80000) * Var 0 * (Num (1#1) / (Site 9 * Site 9) + Num (1#1) / (Site 10 * Site 10));
    Num (83143#40000) * Var 0 * (Num (1#1) / (Site 10 * Site 10))];
    [Num (83143#40000) * Var 0 * (Num (1#1) / (Site 10 * Site 10));
    Num (83143#40000) * Var 0 * (Num (1#1) / (Site 10 * Site 10));
    Num (83143#40000) * Var 0 * (Num (1#1) / (Site 10 * Site 10));
    Num (83143#40000) * Var 0 * (Num (1#1) / (Site 10 * Site 10));
    Num (83143#20000) * Var 0 * (Num (1#1) / (Site 10 * Site 10))]];
    [[Num (83143#80000) * Var 0 * (Num (1#1) / (Site 9 * Site 9) + Num (1#1) / (Site 10 * Site 10));
    Num (83143#80000) * Var 0 * (Num (1#1) / (Site 9 * Site 9) + Num (1#1) / (Site 10 * Site 10));
    Num (83143#80000) * Var 0 * (Num (1#1) / (Site 9 * Site 9) + Num (1#1) / (Site 10 * Site 10));
    Num (83143#80000) * Var 0 * (Num (1#1) / (Site 9 * Site 9) + Num (1#1) / (Site 10 * Site 10));
    Num (83143#40000) * Var 0 * (Num (1#1) / (Site 10 * Site 10))];
    [Num (83143#80000) * Var 0 * (Num (1#1) / (Site 9 * Site 9) + Num (1#1) / (Site 10 * Site 10));
    Num (83143#80000) * Var 0 * (Num (1#1) / (Site 10 * Site 10) + Num (1#1) / (Site 9 * Site 9) - Num (1#1) / (Site 2 * Site 2) - Num (1#1) / (Site 3 * Site 3));
    Num (83143#80000) * Var 0 * (Num (1#1) / (Site 9 * Site 9) + Num (1#1) / (Site 10 * Site 10));
    Num (83143#80000) * Var 0 * (Num (1#1) / (Site 9 * Site 9) + Num (1#1) / (Site 10 * Site 10));
    Num (83143#40000) * Var 0 * (Num (1#1) / (Site 10 * Site 10))];
    [Num (83143#80000) * Var 0 * (Num (1#1) / (Site 9 * Site 9) + Num (1#1) / (Site 10 * Site 10));
    Num (83143#80000) * Var 0 * (Num (1#1) / (Site 9 * Site 9) + Num (1#1) / (Site 10 * Site 10));
    Num (83143#80000) * Var 0 * (Num (1#1) / (Site 9 * Site 9) + Num (1#1) / (Site 10 * Site 10));
    Num (83143#80000) * Var 0 * (Num (1#1) / (Site 9 * Site 9) + Num (1#1) / (Site 10 * Site 10));
    Num (83143#40000) * Var 0 * (Num (1#1) / (Site 10 * Site 10))];
    [Num (83143#80000) * Var 0 * (Num (1#1) / (Site 9 * Site 9) + Num (1#1) / (Site 10 * Site 10));
    Num (83143#80000) * Var 0 * (Num (1#1) / (Site 9 * Site 9) + Num (1#1) / (Site 10 * Site 10));
    Num (83143#80000) * Var 0 * (Num (1#1) / (Site 9 * Site 9) + Num (1#1) / (Site 10 * Site 10));
    Num (83143#80000) * Var 0 * (Num (1#1) / (Site 9 * Site 9) + Num (1#1) / (Site 10 * Site 10));
    Num (83143#40000) * Var 0 * (Num (1#1) / (Site 10 * Site 10))];
    [Num (83143#40000) * Var 0 * (Num (1#1) / (Site 10 * Site 10));
    Num (83143#40000) * Var 0 * (Num (1#1) / (Site 10 * Site 10));
    Num (83143#40000) * Var 0 * (Num (1#1) / (Site 10 * Site 10));
    Num (83143#40000) * Var 0 * (Num (1#1) / (Site 10 * Site 10));
    Num (83143#20000) * Var 0 * (Num (1#1) / (Site 10 * Site 10))]];
    [[Num (83143#80000) * Var 0 * (Num (1#1) / (Site 9 * Site 9) + Num (1#1) / (Site 10 * Site 10));
    Num (83143#80000) * Var 0 * (Num (1#1) / (Site 9 * Site 9) + Num (1#1) / (Site 10 * Site 10));
    Num (83143#80000) * Var 0 * (Num (1#1) / (Site 9 * Site 9) + Num (1#1) / (Site 10 * Site 10));
    Num (83143#80000) * Var 0 * (Num (1#1) / (Site 9 * Site 9) + Num (1#1) / (Site 10 * Site 10));
    Num (83143#40000) * Var 0 * (Num (1#1) / (Site 10 * Site 10))];
    [Num (83143#80000) * Var 0 * (Num (1#1) / (Site 9 * Site 9) + Num (1#1) / (Site 10 * Site 10));
    Num (83143#80000) * Var 0 * (Num (1#1) / (Site 9 * Site 9) + Num (1#1) / (Site 10 * Site 10));
    Num (83143#80000) * Var 0 * (Num (1#1) / (Site 9 * Site 9) + Num (1#1) / (Site 10 * Site 10));
    Num (83143#80000) * Var 0 * (Num (1#1) / (Site 9 * Site 9) + Num (1#1) / (Site 10 * Site 10));
    Num (83143#40000) * Var 0 * (Num (1#1) / (Site 10 * Site 10))];
    [Num (83143#80000) * Var 0 * (Num (1#1) / (Site 9 * Site 9) + Num (1#1) / (Site 10 * Site 10));
    Num (83143#80000) * Var 0 * (Num (1#1) / (Site 9 * Site 9) + Num (1#1) / (Site 10 * Site 10));
    Num (83143#80000) * Var 0 * (Num (1#1) / (Site 9 * Site 9) + Num (1#1) / (Site 10 * Site 10) - Num (1#1) / (Site 5 * Site 5) - Num (1#1) / (Site 4 * Site 4));
    Num (83143#80000) * Var 0 * (Num (1#1) / (Site 9 * Site 9) + Num (1#1) / (Site 10 * Site 10));
    Num (83143#40000) * Var 0 * (Num (1#1) / (Site 10 * Site 10))];
    [Num (83143#80000) * Var 0 * (Num (1#1) / (Site 9 * Site 9) + Num (1#1) / (Site 10 * Site 10));
    Num (83143#80000) * Var 0 * (Num (1#1) / (Site 9 * Site 9) + Num (1#1) / (Site 10 * Site 10));
    Num (83143#80000) * Var 0 * (Num (1#1) / (Site 9 * Site 9) + Num (1#1) / (Site 10 * Site 10));
    Num (83143#80000) * Var 0 * (Num (1#1) / (Site 9 * Site 9) + Num (1#1) / (Site 10 * Site 10));
    Num (83143#40000) * Var 0 * (Num (1#1) / (Site 10 * Site 10))];
    [Num (83143#40000) * Var 0 * (Num (1#1) / (Site 10 * Site 10));
    Num (83143#40000) * Var 0 * (Num (1#1) / (Site 10 * Site 10));
    Num (83143#40000) * Var 0 * (Num (1#1) / (Site 10 * Site 10));
    Num (83143#40000) * Var 0 * (Num (1#1) / (Site 10 * Site 10));
    Num (83143#20000) * Var 0 * (Num (1#1) / (Site 10 * Site 10))]];
    [[Num (83143#80000) * Var 0 * (Num (1#1) / (Site 9 * Site 9) + Num (1#1) / (Site 10 * Site 10));
    Num (83143#80000) * Var 0 * (Num (1#1) / (Site 9 * Site 9) + Num (1#1) / (Site 10 * Site 10));
    Num (83143#80000) * Var 0 * (Num (1#1) / (Site 9 * Site 9) + Num (1#1) / (Site 10 * Site 10));
    Num (83143#80000) * Var 0 * (Num (1#1) / (Site 9 * Site 9) + Num (1#1) / (Site 10 * Site 10));
    Num (83143#40000) * Var 0 * (Num (1#1) / (Site 10 * Site 10))];
    [Num (83143#80000) * Var 0 * (Num (1#1) / (Site 9 * Site 9) + Num (1#1) / (Site 10 * Site 10));
    Num (83143#80000) * Var 0 * (Num (1#1) / (Site 9 * Site 9) + Num (1#1) / (Site 10 * Site 10));
    Num (83143#80000) * Var 0 * (Num (1#1) / (Site 9 * Site 9) + Num (1#1) / (Site 10 * Site 10));
    Num (83143#80000) * Var 0 * (Num (1#1) / (Site 9 * Site 9) + Num (1#1) / (Site 10 * Site 10));
    Num (83143#40000) * Var 0 * (Num (1#1) / (Site 10 * Site 10))];
    [Num (83143#80000) * Var 0 * (Num (1#1) / (Site 9 * Site 9) + Num (1#1) / (Site 10 * Site 10));
    Num (83143#80000) * Var 0 * (Num (1#1) / (Site 9 * Site 9) + Num (1#1) / (Site 10 * Site 10));
    Num (83143#80000) * Var 0 * (Num (1#1) / (Site 9 * Site 9) + Num (1#1) / (Site 10 * Site 10));
    Num (83143#80000) * Var 0 * (Num (1#1) / (Site 9 * Site 9) + Num (1#1) / (Site 10 * Site 10));
    Num (83143#40000) * Var 0 * (Num (1#1) / (Site 10 * Site 10))];
    [Num (83143#80000) * Var 0 * (Num (1#1) / (Site 9 * Site 9) + Num (1#1) / (Site 10 * Site 10));
    Num (83143#80000) * Var 0 * (Num (1#1) / (Site 9 * Site 9) + Num (1#1) / (Site 10 * Site 10));
    Num (83143#80000) * Var 0 * (Num (1#1) / (Site 9 * Site 9) + Num (1#1) / (Site 10 * Site 10));
    Num (83143#80000) * Var 0 * (Num (1#1) / (Site 9 * Site 9) + Num (1#1) / (Site 10 * Site 10) - Num (1#1) / (Site 7 * Site 7) - Num (1#1) / (Site 6 * Site 6));
    Num (83143#40000) * Var 0 * (Num (1#1) / (Site 10 * Site 10))];
    [Num (83143#40000) * Var 0 * (Num (1#1) / (Site 10 * Site 10));
    Num (83143#40000) * Var 0 * (Num (1#1) / (Site 10 * Site 10));
    Num (83143#40000) * Var 0 * (Num (1#1) / (Site 10 * Site 10));
    Num (83143#40000) * Var 0 * (Num (1#1) / (Site 10 * Site 10));
    Num (83143#20000) * Var 0 * (Num (1#1) / (Site 10 * Site 10))]];
    [[Num (83143#40000) * Var 0 * (Num (1#1) / (Site 10 * Site 10));
    Num (83143#40000) * Var 0 * (Num (1#1) / (Site 10 * Site 10));
    Num (83143#40000) * Var 0 * (Num (1#1) / (Site 10 * Site 10));
    Num (83143#40000) * Var 0 * (Num (1#1) / (Site 10 * Site 10));
    Num (83143#20000) * Var 0 * (Num (1#1) / (Site 10 * Site 10))];
    [Num (83143#40000) * Var 0 * (Num (1#1) / (Site 10 * Site 10));
    Num (83143#40000) * Var 0 * (Num (1#1) / (Site 10 * Site 10));
    Num (83143#40000) * Var 0 * (Num (1#1) / (Site 10 * Site 10));
    Num (83143#40000) * Var 0 * (Num (1#1) / (Site 10 * Site 10));
    Num (83143#20000) * Var 0 * (Num (1#1) / (Site 10 * Site 10))];
    [Num (83143#40000) * Var 0 * (Num (1#1) / (Site 10 * Site 10));
    Num (83143#40000) * Var 0 * (Num (1#1) / (Site 10 * Site 10));
    Num (83143#40000) * Var 0 * (Num (1#1) / (Site 10 * Site 10));
    Num (83143#40000) * Var 0 * (Num (1#1) / (Site 10 * Site 10));
    Num (83143#20000) * Var 0 * (Num (1#1) / (Site 10 * Site 10))];
    [Num (83143#40000) * Var 0 * (Num (1#1) / (Site 10 * Site 10));
    Num (83143#40000) * Var 0 * (Num (1#1) / (Site 10 * Site 10));
    Num (83143#40000) * Var 0 * (Num (1#1) / (Site 10 * Site 10));
    Num (83143#40000) * Var 0 * (Num (1#1) / (Site 10 * Site 10));
    Num (83143#20000) * Var 0 * (Num (1#1) / (Site 10 * Site 10))];
    [Num (83143#20000) * Var 0 * (Num (1#1) / (Site 10 * Site 10));
    Num (83143#20000) * Var 0 * (Num (1#1) / (Site 10 * Site 10));
    Num (83143#20000) * Var 0 * (Num (1#1) / (Site 10 * Site 10));
    Num (83143#20000) * Var 0 * (Num (1#1) / (Site 10 * Site 10));
    Num (83143#10000) * Var 0 * (Num (1#1) / (Site 10 * Site 10) - Num (1#1) / (Site 8 * Site 8))]]].
(** sources/olivine.c 1602: macro fillD3GDR2DS *)
Definition oOlv_d3gdr2ds :=
  [[[Num (83143#80000) * Var 0 * (Num (1#1) / (Site 0 * Site 0) + Num (1#1) / (Site 10 * Site 10) - Num (1#1) / (Site 1 * Site 1) - Num (1#1) / (Site 9 * Site 9));
    Num (83143#80000) * Var 0 * (Num (1#1) / (Site 10 * Site 10) - Num (1#1) / (Site 9 * Site 9));
    Num (83143#80000) * Var 0 * (Num (1#1) / (Site 9 * Site 9) - Num (1#1) / (Site 10 * Site 10));
    Num (83143#80000) * Var 0 * (Num (1#1) / (Site 9 * Site 9) - Num (1#1) / (Site 10 * Site 10))];
    [Num (83143#80000) * Var 0 * (Num (1#1) / (Site 10 * Site 10) - Num (1#1) / (Site 9 * Site 9));
    Num (83143#80000) * Var 0 * (Num (1#1) / (Site 10 * Site 10) - Num (1#1) / (Site 9 * Site 9));
    Num (83143#80000) * Var 0 * (Num (1#1) / (Site 9 * Site 9) - Num (1#1) / (Site 10 * Site 10));
    Num (83143#80000) * Var 0 * (Num (1#1) / (Site 9 * Site 9) - Num (1#1) / (Site 10 * Site 10))];
    [Num (83143#80000) * Var 0 * (Num (1#1) / (Site 10 * Site 10) - Num (1#1) / (Site 9 * Site 9));
    Num (83143#80000) * Var 0 * (Num (1#1) / (Site 10 * Site 10) - Num (1#1) / (Site 9 * Site 9));
    Num (83143#80000) * Var 0 * (Num (1#1) / (Site 9 * Site 9) - Num (1#1) / (Site 10 * Site 10));
    Num (83143#80000) * Var 0 * (Num (1#1) / (Site 9 * Site 9) - Num (1#1) / (Site 10 * Site 10))];
    [Num (83143#80000) * Var 0 * (Num (1#1) / (Site 10 * Site 10) - Num (1#1) / (Site 9 * Site 9));
    Num (83143#80000) * Var 0 * (Num (1#1) / (Site 10 * Site 10) - Num (1#1) / (Site 9 * Site 9));
    Num (83143#80000) * Var 0 * (Num (1#1) / (Site 9 * Site 9) - Num (1#1) / (Site 10 * Site 10));
    Num (83143#80000) * Var 0 * (Num (1#1) / (Site 9 * Site 9) - Num (1#1) / (Site 10 * Site 10))];
    [Num (83143#40000) * Var 0 * (Num (1#1) / (Site 10 * Site 10));
    Num (83143#40000) * Var 0 * (Num (1#1) / (Site 10 * Site 10));
    Num (-83143#40000) * Var 0 * (Num (1#1) / (Site 10 * Site 10));
    Num (-83143#40000) * Var 0 * (Num (1#1) / (Site 10 * Site 10))]];
    [[Num (83143#80000) * Var 0 * (Num (1#1) / (Site 10 * Site 10) - Num (1#1) / (Site 9 * Site 9));
    Num (83143#80000) * Var 0 * (Num (1#1) / (Site 10 * Site 10) - Num (1#1) / (Site 9 * Site 9));
    Num (83143#80000) * Var 0 * (Num (1#1) / (Site 9 * Site 9) - Num (1#1) / (Site 10 * Site 10));
    Num (83143#80000) * Var 0 * (Num (1#1) / (Site 9 * Site 9) - Num (1#1) / (Site 10 * Site 10))];
    [Num (83143#80000) * Var 0 * (Num (1#1) / (Site 10 * Site 10) - Num (1#1) / (Site 9 * Site 9));
    Num (83143#80000) * Var 0 * (Num (1#1) / (Site 10 * Site 10) - Num (1#1) / (Site 9 * Site 9) + Num (1#1) / (Site 2 * Site 2) - Num (1#1) / (Site 3 * Site 3));
    Num (83143#80000) * Var 0 * (Num (1#1) / (Site 9 * Site 9) - Num (1#1) / (Site 10 * Site 10));
    Num (83143#80000) * Var 0 * (Num (1#1) / (Site 9 * Site 9) - Num (1#1) / (Site 10 * Site 10))];
    [Num (83143#80000) * Var 0 * (Num (1#1) / (Site 10 * Site 10) - Num (1#1) / (Site 9 * Site 9));
    Num (83143#80000) * Var 0 * (Num (1#1) / (Site 10 * Site 10) - Num (1#1) / (Site 9 * Site 9));
    Num (83143#80000) * Var 0 * (Num (1#1) / (Site 9 * Site 9) - Num (1#1) / (Site 10 * Site 10));
    Num (83143#80000) * Var 0 * (Num (1#1) / (Site 9 * Site 9) - Num (1#1) / (Site 10 * Site 10))];
    [Num (83143#80000) * Var 0 * (Num (1#1) / (Site 10 * Site 10) - Num (1#1) / (Site 9 * Site 9));
    Num (83143#80000) * Var 0 * (Num (1#1) / (Site 10 * Site 10) - Num (1#1) / (Site 9 * Site 9));
    Num (83143#80000) * Var 0 * (Num (1#1) / (Site 9 * Site 9) - Num (1#1) / (Site 10 * Site 10));
    Num (83143#80000) * Var 0 * (Num (1#1) / (Site 9 * Site 9) - Num (1#1) / (Site 10 * Site 10))];
    [Num (83143#40000) * Var 0 * (Num (1#1) / (Site 10 * Site 10));
    Num (83143#40000) * Var 0 * (Num (1#1) / (Site 10 * Site 10));
    Num (-83143#40000) * Var 0 * (Num (1#1) / (Site 10 * Site 10));
    Num (-83143#40000) * Var 0 * (Num (1#1) / (Site 10 * Site 10))]];
    [[Num (83143#80000) * Var 0 * (Num (1#1) / (Site 10 * Site 10) - Num (1#1) / (Site 9 * Site 9));
    Num (83143#80000) * Var 0 * (Num (1#1) / (Site 10 * Site 10) - Num (1#1) / (Site 9 * Site 9));
    Num (83143#80000) * Var 0 * (Num (1#1) / (Site 9 * Site 9) - Num (1#1) / (Site 10 * Site 10));
    Num (83143#80000) * Var 0 * (Num (1#1) / (Site 9 * Site 9) - Num (1#1) / (Site 10 * Site 10))];
    [Num (83143#80000) * Var 0 * (Num (1#1) / (Site 10 * Site 10) - Num (1#1) / (Site 9 * Site 9));
    Num (83143#80000) * Var 0 * (Num (1#1) / (Site 10 * Site 10) - Num (1#1) / (Site 9 * Site 9));
    Num (83143#80000) * Var 0 * (Num (1#1) / (Site 9 * Site 9) - Num (1#1) / (Site 10 * Site 10));
    Num (83143#80000) * Var 0 * (Num (1#1) / (Site 9 * Site 9) - Num (1#1) / (Site 10 * Site 10))];
    [Num (83143#80000) * Var 0 * (Num (1#1) / (Site 10 * Site 10) - Num (1#1) / (Site 9 * Site 9));
    Num (83143#80000) * Var 0 * (Num (1#1) / (Site 10 * Site 10) - Num (1#1) / (Site 9 * Site 9));
    Num (83143#80000) * Var 0 * (Num (1#1) / (Site 9 * Site 9) - Num (1#1) / (Site 10 * Site 10) + Num (1#1) / (Site 5 * Site 5) - Num (1#1) / (Site 4 * Site 4));
    Num (83143#80000) * Var 0 * (Num (1#1) / (Site 9 * Site 9) - Num (1#1) / (Site 10 * Site 10))];
    [Num (83143#80000) * Var 0 * (Num (1#1) / (Site 10 * Site 10) - Num (1#1) / (Site 9 * Site 9));
    Num (83143#80000) * Var 0 * (Num (1#1) / (Site 10 * Site 10) - Num (1#1) / (Site 9 * Site 9));
    Num (83143#80000) * Var 0 * (Num (1#1) / (Site 9 * Site 9) - Num (1#1) / (Site 10 * Site 10));
    Num (83143#80000) * Var 0 * (Num (1#1) / (Site 9 * Site 9) - Num (1#1) / (Site 10 * Site 10))];
    [Num (83143#40000) * Var 0 * (Num (1#1) / (Site 10 * Site 10));
    Num (83143#40000) * Var 0 * (Num (1#1) / (Site 10 * Site 10));
    Num (-83143#40000) * Var 0 * (Num (1#1) / (Site 10 * Site 10));
    Num (-83143#40000) * Var 0 * (Num (1#1) / (Site 10 * Site 10))]];
    [[Num (83143#80000) * Var 0 * (Num (1#1) / (Site 10 * Site 10) - Num (1#1) / (Site 9 * Site 9));
    Num (83143#80000) * Var 0 * (Num (1#1) / (Site 10 * Site 10) - Num (1#1) / (Site 9 * Site 9));
    Num (83143#80000) * Var 0 * (Num (1#1) / (Site 9 * Site 9) - Num (1#1) / (Site 10 * Site 10));
    Num (83143#80000) * Var 0 * (Num (1#1) / (Site 9 * Site 9) - Num (1#1) / (Site 10 * Site 10))];
    [Num (83143#80000) * Var 0 * (Num (1#1) / (Site 10 * Site 10) - Num (1#1) / (Site 9 * Site 9));
    Num (83143#80000) * Var 0 * (Num (1#1) / (Site 10 * Site 10) - Num (1#1) / (Site 9 * Site 9));
    Num (83143#80000) * Var 0 * (Num (1#1) / (Site 9 * Site 9) - Num (1#1) / (Site 10 * Site 10));
    Num (83143#80000) * Var 0 * (Num (1#1) / (Site 9 * Site 9) - Num (1#1) / (Site 10 * Site 10))];
    [Num (83143#80000) * Var 0 * (Num (1#1) / (Site 10 * Site 10) - Num (1#1) / (Site 9 * Site 9));
    Num (83143#80000) * Var 0 * (Num (1#1) / (Site 10 * Site 10) - Num (1#1) / (Site 9 * Site 9));
    Num (83143#80000) * Var 0 * (Num (1#1) / (Site 9 * Site 9) - Num (1#1) / (Site 10 * Site 10));
    Num (83143#80000) * Var 0 * (Num (1#1) / (Site 9 * Site 9) - Num (1#1) / (Site 10 * Site 10))];
    [Num (83143#80000) * Var 0 * (Num (1#1) / (Site 10 * Site 10) - Num (1#1) / (Site 9 * Site 9));
    Num (83143#80000) * Var 0 * (Num (1#1) / (Site 10 * Site 10) - Num (1#1) / (Site 9 * Site 9));
    Num (83143#80000) * Var 0 * (Num (1#1) / (Site 9 * Site 9) - Num (1#1) / (Site 10 * Site 10));
    Num (83143#80000) * Var 0 * (Num (1#1) / (Site 9 * Site 9) - Num (1#1) / (Site 10 * Site 10) + Num (1#1) / (Site 7 * Site 7) - Num (1#1) / (Site 6 * Site 6))];
    [Num (83143#40000) * Var 0 * (Num (1#1) / (Site 10 * Site 10));
    Num (83143#40000) * Var 0 * (Num (1#1) / (Site 10 * Site 10));
    Num (-83143#40000) * Var 0 * (Num (1#1) / (Site 10 * Site 10));
    Num (-83143#40000) * Var 0 * (Num (1#1) / (Site 10 * Site 10))]];
    [[Num (83143#40000) * Var 0 * (Num (1#1) / (Site 10 * Site 10));
    Num (83143#40000) * Var 0 * (Num (1#1) / (Site 10 * Site 10));
    Num (-83143#40000) * Var 0 * (Num (1#1) / (Site 10 * Site 10));
    Num (-83143#40000) * Var 0 * (Num (1#1) / (Site 10 * Site 10))];
    [Num (83143#40000) * Var 0 * (Num (1#1) / (Site 10 * Site 10));
    Num (83143#40000) * Var 0 * (Num (1#1) / (Site 10 * Site 10));
    Num (-83143#40000) * Var 0 * (Num (1#1) / (Site 10 * Site 10));
    Num (-83143#40000) * Var 0 * (Num (1#1) / (Site 10 * Site 10))];
    [Num (83143#40000) * Var 0 * (Num (1#1) / (Site 10 * Site 10));
    Num (83143#40000) * Var 0 * (Num (1#1) / (Site 10 * Site 10));
    Num (-83143#40000) * Var 0 * (Num (1#1) / (Site 10 * Site 10));
    Num (-83143#40000) * Var 0 * (Num (1#1) / (Site 10 * Site 10))];
    [Num (83143#40000) * Var 0 * (Num (1#1) / (Site 10 * Site 10));
    Num (83143#40000) * Var 0 * (Num (1#1) / (Site 10 * Site 10));
    Num (-83143#40000) * Var 0 * (Num (1#1) / (Site 10 * Site 10));
    Num (-83143#40000) * Var 0 * (Num (1#1) / (Site 10 * Site 10))];
    [Num (83143#20000) * Var 0 * (Num (1#1) / (Site 10 * Site 10));
    Num (83143#20000) * Var 0 * (Num (1#1) / (Site 10 * Site 10));
    Num (-83143#20000) * Var 0 * (Num (1#1) / (Site 10 * Site 10));
    Num (-83143#20000) * Var 0 * (Num (1#1) / (Site 10 * Site 10))]]].
(** sources/olivine.c 1654: macro fillD3GDR2DT *)
Definition oOlv_d3gdr2dt :=
  [[Num (83143#40000) * (Num (1#1) / Site 0 + Num (1#1) / Site 1 + Num (1#1) / Site 9 + Num (1#1) / Site 10);
    Num (83143#40000) * (Num (1#1) / Site 9 + Num (1#1) / Site 10);
    Num (83143#40000) * (Num (1#1) / Site 9 + Num (1#1) / Site 10);
    Num (83143#40000) * (Num (1#1) / Site 9 + Num (1#1) / Site 10);
    Num (83143#20000) * (Num (1#1) / Site 10)];
    [Num (83143#40000) * (Num (1#1) / Site 9 + Num (1#1) / Site 10);
    Num (83143#40000) * (Num (1#1) / Site 2 + Num (1#1) / Site 3 + Num (1#1) / Site 9 + Num (1#1) / Site 10);
    Num (83143#40000) * (Num (1#1) / Site 9 + Num (1#1) / Site 10);
    Num (83143#40000) * (Num (1#1) / Site 9 + Num (1#1) / Site 10);
    Num (83143#20000) * (Num (1#1) / Site 10)];
    [Num (83143#40000) * (Num (1#1) / Site 9 + Num (1#1) / Site 10);
    Num (83143#40000) * (Num (1#1) / Site 9 + Num (1#1) / Site 10);
    Num (83143#40000) * (Num (1#1) / Site 4 + Num (1#1) / Site 5 + Num (1#1) / Site 9 + Num (1#1) / Site 10);
    Num (83143#40000) * (Num (1#1) / Site 9 + Num (1#1) / Site 10);
    Num (83143#20000) * (Num (1#1) / Site 10)];
    [Num (83143#40000) * (Num (1#1) / Site 9 + Num (1#1) / Site 10);
    Num (83143#40000) * (Num (1#1) / Site 9 + Num (1#1) / Site 10);
    Num (83143#40000) * (Num (1#1) / Site 9 + Num (1#1) / Site 10);
    Num (83143#40000) * (Num (1#1) / Site 9 + Num (1#1) / Site 10 + Num (1#1) / Site 6 + Num (1#1) / Site 7);
    Num (83143#20000) * (Num (1#1) / Site 10)];
    [Num (83143#20000) * (Num (1#1) / Site 10);
    Num (83143#20000) * (Num (1#1) / Site 10);
    Num (83143#20000) * (Num (1#1) / Site 10);
    Num (83143#20000) * (Num (1#1) / Site 10);
    Num (83143#10000) * (Num (1#1) / Site 10 + Num (1#1) / Site 8)]].
(** sources/olivine.c 1671: macro fillD3GDR2DP *)
Definition oOlv_d3gdr2dp :=
  [[Num (0#1);
    Num (-3#800);
    Num (0#1);
    Num (0#1);
    Num (-7#40)];
    [Num (-3#800);
    Num (-3#400);
    Num (-3#800);
    Num (-3#800);
    Num (-143#800)];
    [Num (0#1);
    Num (-3#800);
    Num (0#1);
    Num (0#1);
    Num (-7#40)];
    [Num (0#1);
    Num (-3#800);
    Num (0#1);
    Num (0#1);
    Num (-7#40)];
    [Num (-7#40);
    Num (-143#800);
    Num (-7#40);
    Num (-7#40);
    Num (-7#10)]].
(** sources/olivine.c 1688: macro fillD3GDRDS2 *)
Definition oOlv_d3gdrds2 :=
  [[[Num (83143#80000) * Var 0 * (Num (1#1) / (Site 10 * Site 10) + Num (1#1) / (Site 9 * Site 9) - Num (1#1) / (Site 1 * Site 1) - Num (1#1) / (Site 0 * Site 0));
    Num (83143#80000) * Var 0 * (Num (1#1) / (Site 10 * Site 10) + Num (1#1) / (Site 9 * Site 9));
    Num (-83143#80000) * Var 0 * (Num (1#1) / (Site 10 * Site 10) + Num (1#1) / (Site 9 * Site 9));
    Num (-83143#80000) * Var 0 * (Num (1#1) / (Site 10 * Site 10) + Num (1#1) / (Site 9 * Site 9))];
    [Num (83143#80000) * Var 0 * (Num (1#1) / (Site 10 * Site 10) + Num (1#1) / (Site 9 * Site 9));
    Num (83143#80000) * Var 0 * (Num (1#1) / (Site 10 * Site 10) + Num (1#1) / (Site 9 * Site 9));
    Num (-83143#80000) * Var 0 * (Num (1#1) / (Site 10 * Site 10) + Num (1#1) / (Site 9 * Site 9));
    Num (-83143#80000) * Var 0 * (Num (1#1) / (Site 10 * Site 10) + Num (1#1) / (Site 9 * Site 9))];
    [Num (-83143#80000) * Var 0 * (Num (1#1) / (Site 10 * Site 10) + Num (1#1) / (Site 9 * Site 9));
    Num (-83143#80000) * Var 0 * (Num (1#1) / (Site 10 * Site 10) + Num (1#1) / (Site 9 * Site 9));
    Num (83143#80000) * Var 0 * (Num (1#1) / (Site 10 * Site 10) + Num (1#1) / (Site 9 * Site 9));
    Num (83143#80000) * Var 0 * (Num (1#1) / (Site 10 * Site 10) + Num (1#1) / (Site 9 * Site 9))];
    [Num (-83143#80000) * Var 0 * (Num (1#1) / (Site 10 * Site 10) + Num (1#1) / (Site 9 * Site 9));
    Num (-83143#80000) * Var 0 * (Num (1#1) / (Site 10 * Site 10) + Num (1#1) / (Site 9 * Site 9));
    Num (83143#80000) * Var 0 * (Num (1#1) / (Site 10 * Site 10) + Num (1#1) / (Site 9 * Site 9));
    Num (83143#80000) * Var 0 * (Num (1#1) / (Site 10 * Site 10) + Num (1#1) / (Site 9 * Site 9))]];
    [[Num (83143#80000) * Var 0 * (Num (1#1) / (Site 10 * Site 10) + Num (1#1) / (Site 9 * Site 9));
    Num (83143#80000) * Var 0 * (Num (1#1) / (Site 10 * Site 10) + Num (1#1) / (Site 9 * Site 9));
    Num (-83143#80000) * Var 0 * (Num (1#1) / (Site 10 * Site 10) + Num (1#1) / (Site 9 * Site 9));
    Num (-83143#80000) * Var 0 * (Num (1#1) / (Site 10 * Site 10) + Num (1#1) / (Site 9 * Site 9))];
    [Num (83143#80000) * Var 0 * (Num (1#1) / (Site 10 * Site 10) + Num (1#1) / (Site 9 * Site 9));
    Num (83143#80000) * Var 0 * (Num (1#1) / (Site 10 * Site 10) + Num (1#1) / (Site 9 * Site 9) - Num (1#1) / (Site 3 * Site 3) - Num (1#1) / (Site 2 * Site 2));
    Num (-83143#80000) * Var 0 * (Num (1#1) / (Site 10 * Site 10) + Num (1#1) / (Site 9 * Site 9));
    Num (-83143#80000) * Var 0 * (Num (1#1) / (Site 10 * Site 10) + Num (1#1) / (Site 9 * Site 9))];
    [Num (-83143#80000) * Var 0 * (Num (1#1) / (Site 10 * Site 10) + Num (1#1) / (Site 9 * Site 9));
    Num (-83143#80000) * Var 0 * (Num (1#1) / (Site 10 * Site 10) + Num (1#1) / (Site 9 * Site 9));
    Num (83143#80000) * Var 0 * (Num (1#1) / (Site 10 * Site 10) + Num (1#1) / (Site 9 * Site 9));
    Num (83143#80000) * Var 0 * (Num (1#1) / (Site 10 * Site 10) + Num (1#1) / (Site 9 * Site 9))];
    [Num (-83143#80000) * Var 0 * (Num (1#1) / (Site 10 * Site 10) + Num (1#1) / (Site 9 * Site 9));
    Num (-83143#80000) * Var 0 * (Num (1#1) / (Site 10 * Site 10) + Num (1#1) / (Site 9 * Site 9));
    Num (83143#80000) * Var 0 * (Num (1#1) / (Site 10 * Site 10) + Num (1#1) / (Site 9 * Site 9));
    Num (83143#80000) * Var 0 * (Num (1#1) / (Site 10 * Site 10) + Num (1#1) / (Site 9 * Site 9))]];
    [[Num (83143#80000) * Var 0 * (Num (1#1) / (Site 10 * Site 10) + Num (1#1) / (Site 9 * Site 9));
    Num (83143#80000) * Var 0 * (Num (1#1) / (Site 10 * Site 10) + Num (1#1) / (Site 9 * Site 9));
    Num (-83143#80000) * Var 0 * (Num (1#1) / (Site 10 * Site 10) + Num (1#1) / (Site 9 * Site 9));
    Num (-83143#80000) * Var 0 * (Num (1#1) / (Site 10 * Site 10) + Num (1#1) / (Site 9 * Site 9))];
    [Num (83143#80000) * Var 0 * (Num (1#1) / (Site 10 * Site 10) + Num (1#1) / (Site 9 * Site 9));
    Num (83143#80000) * Var 0 * (Num (1#1) / (Site 10 * Site 10) + Num (1#1) / (Site 9 * Site 9));
    Num (-83143#80000) * Var 0 * (Num (1#1) / (Site 10 * Site 10) + Num (1#1) / (Site 9 * Site 9));
    Num (-83143#80000) * Var 0 * (Num (1#1) / (Site 10 * Site 10) + Num (1#1) / (Site 9 * Site 9))];
    [Num (-83143#80000) * Var 0 * (Num (1#1) / (Site 10 * Site 10) + Num (1#1) / (Site 9 * Site 9));
    Num (-83143#80000) * Var 0 * (Num (1#1) / (Site 10 * Site 10) + Num (1#1) / (Site 9 * Site 9));
    Num (83143#80000) * Var 0 * (Num (1#1) / (Site 9 * Site 9) + Num (1#1) / (Site 10 * Site 10) - Num (1#1) / (Site 4 * Site 4) - Num (1#1) / (Site 5 * Site 5));
    Num (83143#80000) * Var 0 * (Num (1#1) / (Site 9 * Site 9) + Num (1#1) / (Site 10 * Site 10))];
    [Num (-83143#80000) * Var 0 * (Num (1#1) / (Site 10 * Site 10) + Num (1#1) / (Site 9 * Site 9));
    Num (-83143#80000) * Var 0 * (Num (1#1) / (Site 10 * Site 10) + Num (1#1) / (Site 9 * Site 9));
    Num (83143#80000) * Var 0 * (Num (1#1) / (Site 9 * Site 9) + Num (1#1) / (Site 10 * Site 10));
    Num (83143#80000) * Var 0 * (Num (1#1) / (Site 10 * Site 10) + Num (1#1) / (Site 9 * Site 9))]];
    [[Num (83143#80000) * Var 0 * (Num (1#1) / (Site 10 * Site 10) + Num (1#1) / (Site 9 * Site 9));
    Num (83143#80000) * Var 0 * (Num (1#1) / (Site 10 * Site 10) + Num (1#1) / (Site 9 * Site 9));
    Num (-83143#80000) * Var 0 * (Num (1#1) / (Site 10 * Site 10) + Num (1#1) / (Site 9 * Site 9));
    Num (-83143#80000) * Var 0 * (Num (1#1) / (Site 10 * Site 10) + Num (1#1) / (Site 9 * Site 9))];
    [Num (83143#80000) * Var 0 * (Num (1#1) / (Site 10 * Site 10) + Num (1#1) / (Site 9 * Site 9));
    Num (83143#80000) * Var 0 * (Num (1#1) / (Site 10 * Site 10) + Num (1#1) / (Site 9 * Site 9));
    Num (-83143#80000) * Var 0 * (Num (1#1) / (Site 10 * Site 10) + Num (1#1) / (Site 9 * Site 9));
    Num (-83143#80000) * Var 0 * (Num (1#1) / (Site 10 * Site 10) + Num (1#1) / (Site 9 * Site 9))];
    [Num (-83143#80000) * Var 0 * (Num (1#1) / (Site 10 * Site 10) + Num (1#1) / (Site 9 * Site 9));
    Num (-83143#80000) * Var 0 * (Num (1#1) / (Site 10 * Site 10) + Num (1#1) / (Site 9 * Site 9));
    Num (83143#80000) * Var 0 * (Num (1#1) / (Site 10 * Site 10) + Num (1#1) / (Site 9 * Site 9));
    Num (83143#80000) * Var 0 * (Num (1#1) / (Site 10 * Site 10) + Num (1#1) / (Site 9 * Site 9))];
    [Num (-83143#80000) * Var 0 * (Num (1#1) / (Site 10 * Site 10) + Num (1#1) / (Site 9 * Site 9));
    Num (-83143#80000) * Var 0 * (Num (1#1) / (Site 10 * Site 10) + Num (1#1) / (Site 9 * Site 9));
    Num (83143#80000) * Var 0 * (Num (1#1) / (Site 10 * Site 10) + Num (1#1) / (Site 9 * Site 9));
    Num (83143#80000) * Var 0 * (Num (1#1) / (Site 9 * Site 9) + Num (1#1) / (Site 10 * Site 10) - Num (1#1) / (Site 6 * Site 6) - Num (1#1) / (Site 7 * Site 7))]];
    [[Num (83143#40000) * Var 0 * (Num (1#1) / (Site 10 * Site 10));
    Num (83143#40000) * Var 0 * (Num (1#1) / (Site 10 * Site 10));
    Num (-83143#40000) * Var 0 * (Num (1#1) / (Site 10 * Site 10));
    Num (-83143#40000) * Var 0 * (Num (1#1) / (Site 10 * Site 10))];
    [Num (83143#40000) * Var 0 * (Num (1#1) / (Site 10 * Site 10));
    Num (83143#40000) * Var 0 * (Num (1#1) / (Site 10 * Site 10));
    Num (-83143#40000) * Var 0 * (Num (1#1) / (Site 10 * Site 10));
    Num (-83143#40000) * Var 0 * (Num (1#1) / (Site 10 * Site 10))];
    [Num (-83143#40000) * Var 0 * (Num (1#1) / (Site 10 * Site 10));
    Num (-83143#40000) * Var 0 * (Num (1#1) / (Site 10 * Site 10));
    Num (83143#40000) * Var 0 * (Num (1#1) / (Site 10 * Site 10));
    Num (83143#40000) * Var 0 * (Num (1#1) / (Site 10 * Site 10))];
    [Num (-83143#40000) * Var 0 * (Num (1#1) / (Site 10 * Site 10));
    Num (-83143#40000) * Var 0 * (Num (1#1) / (Site 10 * Site 10));
    Num (83143#40000) * Var 0 * (Num (1#1) / (Site 10 * Site 10));
    Num (83143#40000) * Var 0 * (Num (1#1) / (Site 10 * Site 10))]]].
(** sources/olivine.c 1730: macro fillD3GDRDSDT *)
Definition oOlv_d3gdrdsdt :=
  [[Num (83143#40000) * (Num (-1#1) / Site 0 + Num (1#1) / Site 1 - Num (1#1) / Site 9 + Num (1#1) / Site 10);
    Num (83143#40000) * (Num (1#1) / Site 10 - Num (1#1) / Site 9);
    Num (83143#40000) * (Num (1#1) / Site 9 - Num (1#1) / Site 10);
    Num (83143#40000) * (Num (1#1) / Site 9 - Num (1#1) / Site 10)];
    [Num (83143#40000) * (Num (1#1) / Site 10 - Num (1#1) / Site 9);
    Num (83143#40000) * (Num (-1#1) / Site 2 + Num (1#1) / Site 3 - Num (1#1) / Site 9 + Num (1#1) / Site 10);
    Num (83143#40000) * (Num (1#1) / Site 9 - Num (1#1) / Site 10);
    Num (83143#40000) * (Num (1#1) / Site 9 - Num (1#1) / Site 10)];
    [Num (83143#40000) * (Num (1#1) / Site 10 - Num (1#1) / Site 9);
    Num (83143#40000) * (Num (1#1) / Site 10 - Num (1#1) / Site 9);
    Num (83143#40000) * (Num (1#1) / Site 4 - Num (1#1) / Site 5 + Num (1#1) / Site 9 - Num (1#1) / Site 10);
    Num (83143#40000) * (Num (1#1) / Site 9 - Num (1#1) / Site 10)];
    [Num (83143#40000) * (Num (1#1) / Site 10 - Num (1#1) / Site 9);
    Num (83143#40000) * (Num (1#1) / Site 10 - Num (1#1) / Site 9);
    Num (83143#40000) * (Num (1#1) / Site 9 - Num (1#1) / Site 10);
    Num (83143#40000) * (Num (1#1) / Site 6 - Num (1#1) / Site 7 + Num (1#1) / Site 9 - Num (1#1) / Site 10)];
    [Num (83143#20000) * (Num (1#1) / Site 10);
    Num (83143#20000) * (Num (1#1) / Site 10);
    Num (-83143#20000) * (Num (1#1) / Site 10);
    Num (-83143#20000) * (Num (1#1) / Site 10)]].
(** sources/olivine.c 1742: macro fillD3GDRDSDP *)
Definition oOlv_d3gdrdsdp :=
  [[Num (0#1);
    Num (0#1);
    Num (0#1);
    Num (0#1)];
    [Num (0#1);
    Num (0#1);
    Num (0#1);
    Num (0#1)];
    [Num (0#1);
    Num (0#1);
    Num (0#1);
    Num (0#1)];
    [Num (0#1);
    Num (0#1);
    Num (0#1);
    Num (0#1)];
    [Num (-7#40);
    Num (-137#800);
    Num (7#40);
    Num (7#40)]].
(** sources/olivine.c 1754: macro fillD3GDS3 *)
Definition oOlv_d3gds3 :=
  [[[Num (83143#80000) * Var 0 * (Num (1#1) / (Site 10 * Site 10) - Num (1#1) / (Site 9 * Site 9) + Num (1#1) / (Site 0 * Site 0) - Num (1#1) / (Site 1 * Site 1));
    Num (83143#80000) * Var 0 * (Num (1#1) / (Site 10 * Site 10) - Num (1#1) / (Site 9 * Site 9));
    Num (83143#80000) * Var 0 * (Num (1#1) / (Site 9 * Site 9) - Num (1#1) / (Site 10 * Site 10));
    Num (83143#80000) * Var 0 * (Num (1#1) / (Site 9 * Site 9) - Num (1#1) / (Site 10 * Site 10))];
    [Num (83143#80000) * Var 0 * (Num (1#1) / (Site 10 * Site 10) - Num (1#1) / (Site 9 * Site 9));
    Num (83143#80000) * Var 0 * (Num (1#1) / (Site 10 * Site 10) - Num (1#1) / (Site 9 * Site 9));
    Num (83143#80000) * Var 0 * (Num (1#1) / (Site 9 * Site 9) - Num (1#1) / (Site 10 * Site 10));
    Num (83143#80000) * Var 0 * (Num (1#1) / (Site 9 * Site 9) - Num (1#1) / (Site 10 * Site 10))];
    [Num (83143#80000) * Var 0 * (Num (1#1) / (Site 9 * Site 9) - Num (1#1) / (Site 10 * Site 10));
    Num (83143#80000) * Var 0 * (Num (1#1) / (Site 9 * Site 9) - Num (1#1) / (Site 10 * Site 10));
    Num (83143#80000) * Var 0 * (Num (1#1) / (Site 10 * Site 10) - Num (1#1) / (Site 9 * Site 9));
    Num (83143#80000) * Var 0 * (Num (1#1) / (Site 10 * Site 10) - Num (1#1) / (Site 9 * Site 9))];
    [Num (83143#80000) * Var 0 * (Num (1#1) / (Site 9 * Site 9) - Num (1#1) / (Site 10 * Site 10));
    Num (83143#80000) * Var 0 * (Num (1#1) / (Site 9 * Site 9) - Num (1#1) / (Site 10 * Site 10));
    Num (83143#80000) * Var 0 * (Num (1#1) / (Site 10 * Site 10) - Num (1#1) / (Site 9 * Site 9));
    Num (83143#80000) * Var 0 * (Num (1#1) / (Site 10 * Site 10) - Num (1#1) / (Site 9 * Site 9))]];
    [[Num (83143#80000) * Var 0 * (Num (1#1) / (Site 10 * Site 10) - Num (1#1) / (Site 9 * Site 9));
    Num (83143#80000) * Var 0 * (Num (1#1) / (Site 10 * Site 10) - Num (1#1) / (Site 9 * Site 9));
    Num (83143#80000) * Var 0 * (Num (1#1) / (Site 9 * Site 9) - Num (1#1) / (Site 10 * Site 10));
    Num (83143#80000) * Var 0 * (Num (1#1) / (Site 9 * Site 9) - Num (1#1) / (Site 10 * Site 10))];
    [Num (83143#80000) * Var 0 * (Num (1#1) / (Site 10 * Site 10) - Num (1#1) / (Site 9 * Site 9));
    Num (83143#80000) * Var 0 * (Num (1#1) / (Site 10 * Site 10) - Num (1#1) / (Site 9 * Site 9) + Num (1#1) / (Site 2 * Site 2) - Num (1#1) / (Site 3 * Site 3));
    Num (83143#80000) * Var 0 * (Num (1#1) / (Site 9 * Site 9) - Num (1#1) / (Site 10 * Site 10));
    Num (83143#80000) * Var 0 * (Num (1#1) / (Site 9 * Site 9) - Num (1#1) / (Site 10 * Site 10))];
    [Num (83143#80000) * Var 0 * (Num (1#1) / (Site 9 * Site 9) - Num (1#1) / (Site 10 * Site 10));
    Num (83143#80000) * Var 0 * (Num (1#1) / (Site 9 * Site 9) - Num (1#1) / (Site 10 * Site 10));
    Num (83143#80000) * Var 0 * (Num (1#1) / (Site 10 * Site 10) - Num (1#1) / (Site 9 * Site 9));
    Num (83143#80000) * Var 0 * (Num (1#1) / (Site 10 * Site 10) - Num (1#1) / (Site 9 * Site 9))];
    [Num (83143#80000) * Var 0 * (Num (1#1) / (Site 9 * Site 9) - Num (1#1) / (Site 10 * Site 10));
    Num (83143#80000) * Var 0 * (Num (1#1) / (Site 9 * Site 9) - Num (1#1) / (Site 10 * Site 10));
    Num (83143#80000) * Var 0 * (Num (1#1) / (Site 10 * Site 10) - Num (1#1) / (Site 9 * Site 9));
    Num (83143#80000) * Var 0 * (Num (1#1) / (Site 10 * Site 10) - Num (1#1) / (Site 9 * Site 9))]];
    [[Num (83143#80000) * Var 0 * (Num (1#1) / (Site 9 * Site 9) - Num (1#1) / (Site 10 * Site 10));
    Num (83143#80000) * Var 0 * (Num (1#1) / (Site 9 * Site 9) - Num (1#1) / (Site 10 * Site 10));
    Num (83143#80000) * Var 0 * (Num (1#1) / (Site 10 * Site 10) - Num (1#1) / (Site 9 * Site 9));
    Num (83143#80000) * Var 0 * (Num (1#1) / (Site 10 * Site 10) - Num (1#1) / (Site 9 * Site 9))];
    [Num (83143#80000) * Var 0 * (Num (1#1) / (Site 9 * Site 9) - Num (1#1) / (Site 10 * Site 10));
    Num (83143#80000) * Var 0 * (Num (1#1) / (Site 9 * Site 9) - Num (1#1) / (Site 10 * Site 10));
    Num (83143#80000) * Var 0 * (Num (1#1) / (Site 10 * Site 10) - Num (1#1) / (Site 9 * Site 9));
    Num (83143#80000) * Var 0 * (Num (1#1) / (Site 10 * Site 10) - Num (1#1) / (Site 9 * Site 9))];
    [Num (83143#80000) * Var 0 * (Num (1#1) / (Site 10 * Site 10) - Num (1#1) / (Site 9 * Site 9));
    Num (83143#80000) * Var 0 * (Num (1#1) / (Site 10 * Site 10) - Num (1#1) / (Site 9 * Site 9));
    Num (83143#80000) * Var 0 * (Num (1#1) / (Site 9 * Site 9) - Num (1#1) / (Site 10 * Site 10) + Num (1#1) / (Site 5 * Site 5) - Num (1#1) / (Site 4 * Site 4));
    Num (83143#80000) * Var 0 * (Num (1#1) / (Site 9 * Site 9) - Num (1#1) / (Site 10 * Site 10))];
    [Num (83143#80000) * Var 0 * (Num (1#1) / (Site 10 * Site 10) - Num (1#1) / (Site 9 * Site 9));
    Num (83143#80000) * Var 0 * (Num (1#1) / (Site 10 * Site 10) - Num (1#1) / (Site 9 * Site 9));
    Num (83143#80000) * Var 0 * (Num (1#1) / (Site 9 * Site 9) - Num (1#1) / (Site 10 * Site 10));
    Num (83143#80000) * Var 0 * (Num (1#1) / (Site 9 * Site 9) - Num (1#1) / (Site 10 * Site 10))]];
    [[Num (83143#80000) * Var 0 * (Num (1#1) / (Site 9 * Site 9) - Num (1#1) / (Site 10 * Site 10));
    Num (83143#80000) * Var 0 * (Num (1#1) / (Site 9 * Site 9) - Num (1#1) / (Site 10 * Site 10));
    Num (83143#80000) * Var 0 * (Num (1#1) / (Site 10 * Site 10) - Num (1#1) / (Site 9 * Site 9));
    Num (83143#80000) * Var 0 * (Num (1#1) / (Site 10 * Site 10) - Num (1#1) / (Site 9 * Site 9))];
    [Num (83143#80000) * Var 0 * (Num (1#1) / (Site 9 * Site 9) - Num (1#1) / (Site 10 * Site 10));
    Num (83143#80000) * Var 0 * (Num (1#1) / (Site 9 * Site 9) - Num (1#1) / (Site 10 * Site 10));
    Num (83143#80000) * Var 0 * (Num (1#1) / (Site 10 * Site 10) - Num (1#1) / (Site 9 * Site 9));
    Num (83143#80000) * Var 0 * (Num (1#1) / (Site 10 * Site 10) - Num (1#1) / (Site 9 * Site 9))];
    [Num (83143#80000) * Var 0 * (Num (1#1) / (Site 10 * Site 10) - Num (1#1) / (Site 9 * Site 9));
    Num (83143#80000) * Var 0 * (Num (1#1) / (Site 10 * Site 10) - Num (1#1) / (Site 9 * Site 9));
    Num (83143#80000) * Var 0 * (Num (1#1) / (Site 9 * Site 9) - Num (1#1) / (Site 10 * Site 10));
    Num (83143#80000) * Var 0 * (Num (1#1) / (Site 9 * Site 9) - Num (1#1) / (Site 10 * Site 10))];
    [Num (83143#80000) * Var 0 * (Num (1#1) / (Site 10 * Site 10) - Num (1#1) / (Site 9 * Site 9));
    Num (83143#80000) * Var 0 * (Num (1#1) / (Site 10 * Site 10) - Num (1#1) / (Site 9 * Site 9));
    Num (83143#80000) * Var 0 * (Num (1#1) / (Site 9 * Site 9) - Num (1#1) / (Site 10 * Site 10));
    Num (83143#80000) * Var 0 * (Num (1#1) / (Site 9 * Site 9) - Num (1#1) / (Site 10 * Site 10) + Num (1#1) / (Site 7 * Site 7) - Num (1#1) / (Site 6 * Site 6))]]].
(** sources/olivine.c 1788: macro fillD3GDS2DT *)
Definition oOlv_d3gds2dt :=
  [[Num (83143#40000) * (Num (1#1) / Site 0 + Num (1#1) / Site 1 + Num (1#1) / Site 9 + Num (1#1) / Site 10);
    Num (83143#40000) * (Num (1#1) / Site 9 + Num (1#1) / Site 10);
    Num (-83143#40000) * (Num (1#1) / Site 9 + Num (1#1) / Site 10);
    Num (-83143#40000) * (Num (1#1) / Site 9 + Num (1#1) / Site 10)];
    [Num (83143#40000) * (Num (1#1) / Site 9 + Num (1#1) / Site 10);
    Num (83143#40000) * (Num (1#1) / Site 2 + Num (1#1) / Site 3 + Num (1#1) / Site 9 + Num (1#1) / Site 10);
    Num (-83143#40000) * (Num (1#1) / Site 9 + Num (1#1) / Site 10);
    Num (-83143#40000) * (Num (1#1) / Site 9 + Num (1#1) / Site 10)];
    [Num (-83143#40000) * (Num (1#1) / Site 9 + Num (1#1) / Site 10);
    Num (-83143#40000) * (Num (1#1) / Site 9 + Num (1#1) / Site 10);
    Num (83143#40000) * (Num (1#1) / Site 4 + Num (1#1) / Site 5 + Num (1#1) / Site 9 + Num (1#1) / Site 10);
    Num (83143#40000) * (Num (1#1) / Site 9 + Num (1#1) / Site 10)];
    [Num (-83143#40000) * (Num (1#1) / Site 9 + Num (1#1) / Site 10);
    Num (-83143#40000) * (Num (1#1) / Site 9 + Num (1#1) / Site 10);
    Num (83143#40000) * (Num (1#1) / Site 9 + Num (1#1) / Site 10);
    Num (83143#40000) * (Num (1#1) / Site 6 + Num (1#1) / Site 7 + Num (1#1) / Site 9 + Num (1#1) / Site 10)]].
(** sources/olivine.c 1798: macro fillD3GDS2DP *)
Definition oOlv_d3gds2dp :=
  [[Num (0#1);
    Num (3#800);
    Num (0#1);
    Num (0#1)];
    [Num (3#800);
    Num (3#400);
    Num (-3#800);
    Num (-3#800)];
    [Num (0#1);
    Num (-3#800);
    Num (0#1);
    Num (0#1)];
    [Num (0#1);
    Num (-3#800);
    Num (0#1);
    Num (0#1)]].
(** sources/olivine.c 1808: macro fillD3GDSDT2 *)
Definition oOlv_d3gdsdt2 :=
  [Num (0#1);
    Num (0#1);
    Num (0#1);
    Num (0#1)].
(** sources/olivine.c 1812: macro fillD3GDSDTDP *)
Definition oOlv_d3gdsdtdp :=
  [Num (0#1);
    Num (0#1);
    Num (0#1);
    Num (0#1)].
(** sources/olivine.c 1816: macro fillD3GDSDP2 *)
Definition oOlv_d3gdsdp2 :=
  [Num (0#1);
    Num (0#1);
    Num (0#1);
    Num (0#1)].
(** sources/olivine.c 1820: macro fillD3GDRDT2 *)
Definition oOlv_d3gdrdt2 :=
  [Num (0#1);
    Num (0#1);
    Num (0#1);
    Num (0#1);
    Num (0#1)].
(** sources/olivine.c 1825: macro fillD3GDRDTDP *)
Definition oOlv_d3gdrdtdp :=
  [Num (0#1);
    Num (0#1);
    Num (0#1);
    Num (0#1);
    Num (0#1)].
(** sources/olivine.c 1830: macro fillD3GDRDP2 *)
Definition oOlv_d3gdrdp2 :=
  [Num (0#1);
    Num (0#1);
    Num (0#1);
    Num (0#1);
    Num (0#1)].
(** sources/olivine.c 1141: macro D2GDT2 *)
Definition oOlv_D2GDT2 :=
  Num (0#1).
(** sources/olivine.c 1142: macro D2GDTDP *)
Definition oOlv_D2GDTDP :=
  Num (0#1).
(** sources/olivine.c 1143: macro D2GDP2 *)
Definition oOlv_D2GDP2 :=
  Num (0#1).
(** sources/olivine.c 1458: macro D3GDT3 *)
Definition oOlv_D3GDT3 :=
  Num (0#1).
(** sources/olivine.c 1459: macro D3GDT2DP *)
Definition oOlv_D3GDT2DP :=
  Num (0#1).
(** sources/olivine.c 1460: macro D3GDTDP2 *)
Definition oOlv_D3GDTDP2 :=
  Num (0#1).
(** sources/olivine.c 1461: macro D3GDP3 *)
Definition oOlv_D3GDP3 :=
  Num (0#1).
(** sources/olivine.c, order: the site fractions and their clamps *)
Definition oOlv_sites := [mkSite ((Var 2 - Var 40 + Num (1#1)) / Num (2#1)) Low;
    mkSite ((Var 2 + Var 40 + Num (1#1)) / Num (2#1)) Low;
    mkSite ((Var 3 - Var 41 + Num (1#1)) / Num (2#1)) Low;
    mkSite ((Var 3 + Var 41 + Num (1#1)) / Num (2#1)) Low;
    mkSite ((Var 4 + Var 42 + Num (1#1)) / Num (2#1)) Low;
    mkSite ((Var 4 - Var 42 + Num (1#1)) / Num (2#1)) Low;
    mkSite ((Var 5 + Var 43 + Num (1#1)) / Num (2#1)) Low;
    mkSite ((Var 5 - Var 43 + Num (1#1)) / Num (2#1)) Low;
    mkSite (Var 6) Low;
    mkSite (Num (1#1) - (Var 2 - Var 40 + Num (1#1)) / Num (2#1) - (Var 3 - Var 41 + Num (1#1)) / Num (2#1) - (Var 4 + Var 42 + Num (1#1)) / Num (2#1) - (Var 5 + Var 43 + Num (1#1)) / Num (2#1)) Low;
    mkSite (Num (1#1) - (Var 2 + Var 40 + Num (1#1)) / Num (2#1) - (Var 3 + Var 41 + Num (1#1)) / Num (2#1) - (Var 4 - Var 42 + Num (1#1)) / Num (2#1) - (Var 5 - Var 43 + Num (1#1)) / Num (2#1) - Var 6) Low].
Definition oOlv := mkOrd "olivine" 6 5 4 SVD false oOlv_sites None oOlv_g oOlv_s oOlv_v oOlv_r1 oOlv_s1
  oOlv_d2gdr2 oOlv_d2gdrds oOlv_d2gdrdt oOlv_d2gdrdp oOlv_d2gds2 oOlv_d2gdsdt oOlv_d2gdsdp oOlv_d3gdr3 oOlv_d3gdr2ds oOlv_d3gdr2dt oOlv_d3gdr2dp oOlv_d3gdrds2 oOlv_d3gdrdsdt oOlv_d3gdrdsdp oOlv_d3gds3 oOlv_d3gds2dt oOlv_d3gds2dp oOlv_d3gdsdt2 oOlv_d3gdsdtdp oOlv_d3gdsdp2 oOlv_d3gdrdt2 oOlv_d3gdrdtdp oOlv_d3gdrdp2 oOlv_D2GDT2 oOlv_D2GDTDP oOlv_D2GDP2 oOlv_D3GDT3 oOlv_D3GDT2DP oOlv_D3GDTDP2 oOlv_D3GDP3.
(** sources/ortho-oxide.c 1147: macro G *)
Definition oOox_g :=
  Num (12500#1) + Num (23000#1) * Var 2 + Num (42000#1) * Var 3 + Num (-11000#1) * Var 40 + Num (-11000#1) * Var 41 + Num (-11000#1) * Var 42 + Num (-23000#1) * Var 2 * Var 2 + Num (-59600#1) * Var 2 * Var 3 + Num (-42000#1) * Var 3 * Var 3 + Num (-1500#1) * Var 40 * Var 40 + Num (-1500#1) * Var 41 * Var 41 + Num (-1500#1) * Var 42 * Var 42 - Var 0 * (Num (-83143#10000) * (Site 0 * Log 0 + Site 1 * Log 1 + Site 2 * Log 2 + Site 3 * Log 3 + Num (2#1) * Site 4 * Log 4 + Num (2#1) * Site 5 * Log 5 + Num (2#1) * Site 6 * Log 6 + Num (2#1) * Site 7 * Log 7)).
(** sources/ortho-oxide.c 1137: macro S *)
Definition oOox_s :=
  Num (-83143#10000) * (Site 0 * Log 0 + Site 1 * Log 1 + Site 2 * Log 2 + Site 3 * Log 3 + Num (2#1) * Site 4 * Log 4 + Num (2#1) * Site 5 * Log 5 + Num (2#1) * Site 6 * Log 6 + Num (2#1) * Site 7 * Log 7).
(** sources/ortho-oxide.c 1167: macro DGDP *)
Definition oOox_v :=
  Num (0#1).
(** sources/ortho-oxide.c 1151-1154: macros DGDRi *)
Definition oOox_r1 :=
  [Num (83143#10000) * Var 0 * (Num (1#2) * Log 0 - Num (1#2) * Log 3 + Num (1#2) * Log 4 + Log 6 - Num (3#2) * Log 7) + Num (23000#1) + Num (-46000#1) * Var 2 + Num (-59600#1) * Var 3;
    Num (83143#10000) * Var 0 * (Num (1#2) * Log 1 - Num (1#2) * Log 3 + Num (1#2) * Log 5 + Log 6 - Num (3#2) * Log 7) + Num (42000#1) + Num (-59600#1) * Var 2 + Num (-84000#1) * Var 3].
(** sources/ortho-oxide.c 1157-1163: macros DGDSi *)
Definition oOox_s1 :=
  [Num (83143#10000) * Var 0 * (Num (-1#2) * Log 2 + Num (1#2) * Log 3 + Num (1#2) * Log 6 - Num (1#2) * Log 7) + Num (-11000#1) + Num (-3000#1) * Var 40;
    Num (83143#10000) * Var 0 * (Num (1#2) * Log 0 - Num (1#2) * Log 2 - Num (1#2) * Log 4 + Num (1#2) * Log 6) + Num (-11000#1) + Num (-3000#1) * Var 41;
    Num (83143#10000) * Var 0 * (Num (1#2) * Log 1 - Num (1#2) * Log 2 - Num (1#2) * Log 5 + Num (1#2) * Log 6) + Num (-11000#1) + Num (-3000#1) * Var 42].
(** sources/ortho-oxide.c 1328: macro fillD2GDR2 *)
Definition oOox_d2gdr2 :=
  [[Num (83143#10000) * Var 0 * (Num (1#4) / Site 0 + Num (1#4) / Site 3 + Num (1#8) / Site 4 + Num (1#2) / Site 6 + Num (9#8) / Site 7) + Num (-46000#1);
    Num (83143#10000) * Var 0 * (Num (1#4) / Site 3 + Num (1#2) / Site 6 + Num (9#8) / Site 7) + Num (-59600#1)];
    [Num (83143#10000) * Var 0 * (Num (1#4) / Site 3 + Num (1#2) / Site 6 + Num (9#8) / Site 7) + Num (-59600#1);
    Num (83143#10000) * Var 0 * (Num (1#4) / Site 1 + Num (1#4) / Site 3 + Num (1#8) / Site 5 + Num (1#2) / Site 6 + Num (9#8) / Site 7) + Num (-84000#1)]].
(** sources/ortho-oxide.c 1332: macro fillD2GDRDS *)
Definition oOox_d2gdrds :=
  [[Num (83143#10000) * Var 0 * (Num (-1#4) / Site 3 + Num (1#4) / Site 6 + Num (3#8) / Site 7);
    Num (83143#10000) * Var 0 * (Num (1#4) / Site 0 - Num (1#8) / Site 4 + Num (1#4) / Site 6);
    Num (83143#10000) * Var 0 * (Num (1#4) / Site 6)];
    [Num (83143#10000) * Var 0 * (Num (-1#4) / Site 3 + Num (1#4) / Site 6 + Num (3#8) / Site 7);
    Num (83143#10000) * Var 0 * (Num (1#4) / Site 6);
    Num (83143#10000) * Var 0 * (Num (1#4) / Site 1 - Num (1#8) / Site 5 + Num (1#4) / Site 6)]].
(** sources/ortho-oxide.c 1336: macro fillD2GDRDT *)
Definition oOox_d2gdrdt :=
  [Num (83143#10000) * (Num (1#2) * Log 0 - Num (1#2) * Log 3 + Num (1#2) * Log 4 + Log 6 - Num (3#2) * Log 7);
    Num (83143#10000) * (Num (1#2) * Log 1 - Num (1#2) * Log 3 + Num (1#2) * Log 5 + Log 6 - Num (3#2) * Log 7)].
(** sources/ortho-oxide.c 1339: macro fillD2GDRDP *)
Definition oOox_d2gdrdp :=
  [Num (0#1);
    Num (0#1)].
(** sources/ortho-oxide.c 705-1342: macro fillD2GDS2 *)
Definition oOox_d2gds2 :=
  [[Num (83143#10000) * Var 0 * (Num (1#4) / Site 2 + Num (1#4) / Site 3 + Num (1#8) / Site 6 + Num (1#8) / Site 7) + Num (-3000#1);
    Num (83143#10000) * Var 0 * (Num (1#4) / Site 2 + Num (1#8) / Site 6);
    Num (83143#10000) * Var 0 * (Num (1#4) / Site 2 + Num (1#8) / Site 6)];
    [Num (83143#10000) * Var 0 * (Num (1#4) / Site 2 + Num (1#8) / Site 6);
    Num (83143#10000) * Var 0 * (Num (1#4) / Site 0 + Num (1#4) / Site 2 + Num (1#8) / Site 4 + Num (1#8) / Site 6) + Num (-3000#1);
    Num (83143#10000) * Var 0 * (Num (1#4) / Site 2 + Num (1#8) / Site 6)];
    [Num (83143#10000) * Var 0 * (Num (1#4) / Site 2 + Num (1#8) / Site 6);
    Num (83143#10000) * Var 0 * (Num (1#4) / Site 2 + Num (1#8) / Site 6);
    Num (83143#10000) * Var 0 * (Num (1#4) / Site 1 + Num (1#4) / Site 2 + Num (1#8) / Site 5 + Num (1#8) / Site 6) + Num (-3000#1)]].
(** sources/ortho-oxide.c 526-1347: macro fillD2GDSDT *)
Definition oOox_d2gdsdt :=
  [Num (83143#10000) * (Num (-1#2) * Log 2 + Num (1#2) * Log 3 + Num (1#2) * Log 6 - Num (1#2) * Log 7);
    Num (83143#10000) * (Num (1#2) * Log 0 - Num (1#2) * Log 2 - Num (1#2) * Log 4 + Num (1#2) * Log 6);
    Num (83143#10000) * (Num (1#2) * Log 1 - Num (1#2) * Log 2 - Num (1#2) * Log 5 + Num (1#2) * Log 6)].
(** sources/ortho-oxide.c 530-1350: macro fillD2GDSDP *)
Definition oOox_d2gdsdp :=
  [Num (0#1);
    Num (0#1);
    Num (0#1)].
(** sources/ortho-oxide.c 1353: macro fillD3GDR3 *)
Definition oOox_d3gdr3 :=
  [[[Num (83143#10000) * Var 0 * (Num (-1#8) / (Site 0 * Site 0) + Num (1#8) / (Site 3 * Site 3) - Num (1#32) / (Site 4 * Site 4) - Num (1#4) / (Site 6 * Site 6) + Num (27#32) / (Site 7 * Site 7));
    Num (83143#10000) * Var 0 * (Num (1#8) / (Site 3 * Site 3) - Num (1#4) / (Site 6 * Site 6) + Num (27#32) / (Site 7 * Site 7))];
    [Num (83143#10000) * Var 0 * (Num (1#8) / (Site 3 * Site 3) - Num (1#4) / (Site 6 * Site 6) + Num (27#32) / (Site 7 * Site 7));
    Num (83143#10000) * Var 0 * (Num (1#8) / (Site 3 * Site 3) - Num (1#4) / (Site 6 * Site 6) + Num (27#32) / (Site 7 * Site 7))]];
    [[Num (83143#10000) * Var 0 * (Num (1#8) / (Site 3 * Site 3) - Num (1#4) / (Site 6 * Site 6) + Num (27#32) / (Site 7 * Site 7));
    Num (83143#10000) * Var 0 * (Num (1#8) / (Site 3 * Site 3) - Num (1#4) / (Site 6 * Site 6) + Num (27#32) / (Site 7 * Site 7))];
    [Num (83143#10000) * Var 0 * (Num (1#8) / (Site 3 * Site 3) - Num (1#4) / (Site 6 * Site 6) + Num (27#32) / (Site 7 * Site 7));
    Num (83143#10000) * Var 0 * (Num (-1#8) / (Site 1 * Site 1) + Num (1#8) / (Site 3 * Site 3) - Num (1#32) / (Site 5 * Site 5) - Num (1#4) / (Site 6 * Site 6) + Num (27#32) / (Site 7 * Site 7))]]].
(** sources/ortho-oxide.c 1359: macro fillD3GDR2DS *)
Definition oOox_d3gdr2ds :=
  [[[Num (83143#10000) * Var 0 * (Num (-1#8) / (Site 3 * Site 3) - Num (1#8) / (Site 6 * Site 6) + Num (9#32) / (Site 7 * Site 7));
    Num (83143#10000) * Var 0 * (Num (-1#8) / (Site 0 * Site 0) + Num (1#32) / (Site 4 * Site 4) - Num (1#8) / (Site 6 * Site 6));
    Num (83143#10000) * Var 0 * (Num (-1#8) / (Site 6 * Site 6))];
    [Num (83143#10000) * Var 0 * (Num (-1#8) / (Site 3 * Site 3) - Num (1#8) / (Site 6 * Site 6) + Num (9#32) / (Site 7 * Site 7));
    Num (83143#10000) * Var 0 * (Num (-1#8) / (Site 6 * Site 6));
    Num (83143#10000) * Var 0 * (Num (-1#8) / (Site 6 * Site 6))]];
    [[Num (83143#10000) * Var 0 * (Num (-1#8) / (Site 3 * Site 3) - Num (1#8) / (Site 6 * Site 6) + Num (9#32) / (Site 7 * Site 7));
    Num (83143#10000) * Var 0 * (Num (-1#8) / (Site 6 * Site 6));
    Num (83143#10000) * Var 0 * (Num (-1#8) / (Site 6 * Site 6))];
    [Num (83143#10000) * Var 0 * (Num (-1#8) / (Site 3 * Site 3) - Num (1#8) / (Site 6 * Site 6) + Num (9#32) / (Site 7 * Site 7));
    Num (83143#10000) * Var 0 * (Num (-1#8) / (Site 6 * Site 6));
    Num (83143#10000) * Var 0 * (Num (-1#8) / (Site 1 * Site 1) + Num (1#32) / (Site 5 * Site 5) - Num (1#8) / (Site 6 * Site 6))]]].
(** sources/ortho-oxide.c 1369: macro fillD3GDR2DT *)
Definition oOox_d3gdr2dt :=
  [[Num (83143#10000) * (Num (1#4) / Site 0 + Num (1#4) / Site 3 + Num (1#8) / Site 4 + Num (1#2) / Site 6 + Num (9#8) / Site 7);
    Num (83143#10000) * (Num (1#4) / Site 3 + Num (1#2) / Site 6 + Num (9#8) / Site 7)];
    [Num (83143#10000) * (Num (1#4) / Site 3 + Num (1#2) / Site 6 + Num (9#8) / Site 7);
    Num (83143#10000) * (Num (1#4) / Site 1 + Num (1#4) / Site 3 + Num (1#8) / Site 5 + Num (1#2) / Site 6 + Num (9#8) / Site 7)]].
(** sources/ortho-oxide.c 1373: macro fillD3GDR2DP *)
Definition oOox_d3gdr2dp :=
  [[Num (0#1);
    Num (0#1)];
    [Num (0#1);
    Num (0#1)]].
(** sources/ortho-oxide.c 1377: macro fillD3GDRDS2 *)
Definition oOox_d3gdrds2 :=
  [[[Num (83143#10000) * Var 0 * (Num (1#8) / (Site 3 * Site 3) - Num (1#16) / (Site 6 * Site 6) + Num (3#32) / (Site 7 * Site 7));
    Num (83143#10000) * Var 0 * (Num (-1#16) / (Site 6 * Site 6));
    Num (83143#10000) * Var 0 * (Num (-1#16) / (Site 6 * Site 6))];
    [Num (83143#10000) * Var 0 * (Num (-1#16) / (Site 6 * Site 6));
    Num (83143#10000) * Var 0 * (Num (-1#8) / (Site 0 * Site 0) - Num (1#32) / (Site 4 * Site 4) - Num (1#16) / (Site 6 * Site 6));
    Num (83143#10000) * Var 0 * (Num (-1#16) / (Site 6 * Site 6))];
    [Num (83143#10000) * Var 0 * (Num (-1#16) / (Site 6 * Site 6));
    Num (83143#10000) * Var 0 * (Num (-1#16) / (Site 6 * Site 6));
    Num (83143#10000) * Var 0 * (Num (-1#16) / (Site 6 * Site 6))]];
    [[Num (83143#10000) * Var 0 * (Num (1#8) / (Site 3 * Site 3) - Num (1#16) / (Site 6 * Site 6) + Num (3#32) / (Site 7 * Site 7));
    Num (83143#10000) * Var 0 * (Num (-1#16) / (Site 6 * Site 6));
    Num (83143#10000) * Var 0 * (Num (-1#16) / (Site 6 * Site 6))];
    [Num (83143#10000) * Var 0 * (Num (-1#16) / (Site 6 * Site 6));
    Num (83143#10000) * Var 0 * (Num (-1#16) / (Site 6 * Site 6));
    Num (83143#10000) * Var 0 * (Num (-1#16) / (Site 6 * Site 6))];
    [Num (83143#10000) * Var 0 * (Num (-1#16) / (Site 6 * Site 6));
    Num (83143#10000) * Var 0 * (Num (-1#16) / (Site 6 * Site 6));
    Num (83143#10000) * Var 0 * (Num (-1#8) / (Site 1 * Site 1) - Num (1#32) / (Site 5 * Site 5) - Num (1#16) / (Site 6 * Site 6))]]].
(** sources/ortho-oxide.c 1391: macro fillD3GDRDSDT *)
Definition oOox_d3gdrdsdt :=
  [[Num (83143#10000) * (Num (-1#4) / Site 3 + Num (1#4) / Site 6 + Num (3#8) / Site 7);
    Num (83143#10000) * (Num (1#4) / Site 0 - Num (1#8) / Site 4 + Num (1#4) / Site 6);
    Num (83143#10000) * (Num (1#4) / Site 6)];
    [Num (83143#10000) * (Num (-1#4) / Site 3 + Num (1#4) / Site 6 + Num (3#8) / Site 7);
    Num (83143#10000) * (Num (1#4) / Site 6);
    Num (83143#10000) * (Num (1#4) / Site 1 - Num (1#8) / Site 5 + Num (1#4) / Site 6)]].
(** sources/ortho-oxide.c 1397: macro fillD3GDRDSDP *)
Definition oOox_d3gdrdsdp :=
  [[Num (0#1);
    Num (0#1);
    Num (0#1)];
    [Num (0#1);
    Num (0#1);
    Num (0#1)]].
(** sources/ortho-oxide.c 534-1403: macro fillD3GDS3 *)
Definition oOox_d3gds3 :=
  [[[Num (83143#10000) * Var 0 * (Num (1#8) / (Site 2 * Site 2) - Num (1#8) / (Site 3 * Site 3) - Num (1#32) / (Site 6 * Site 6) + Num (1#32) / (Site 7 * Site 7));
    Num (83143#10000) * Var 0 * (Num (1#8) / (Site 2 * Site 2) - Num (1#32) / (Site 6 * Site 6));
    Num (83143#10000) * Var 0 * (Num (1#8) / (Site 2 * Site 2) - Num (1#32) / (Site 6 * Site 6))];
    [Num (83143#10000) * Var 0 * (Num (1#8) / (Site 2 * Site 2) - Num (1#32) / (Site 6 * Site 6));
    Num (83143#10000) * Var 0 * (Num (1#8) / (Site 2 * Site 2) - Num (1#32) / (Site 6 * Site 6));
    Num (83143#10000) * Var 0 * (Num (1#8) / (Site 2 * Site 2) - Num (1#32) / (Site 6 * Site 6))];
    [Num (83143#10000) * Var 0 * (Num (1#8) / (Site 2 * Site 2) - Num (1#32) / (Site 6 * Site 6));
    Num (83143#10000) * Var 0 * (Num (1#8) / (Site 2 * Site 2) - Num (1#32) / (Site 6 * Site 6));
    Num (83143#10000) * Var 0 * (Num (1#8) / (Site 2 * Site 2) - Num (1#32) / (Site 6 * Site 6))]];
    [[Num (83143#10000) * Var 0 * (Num (1#8) / (Site 2 * Site 2) - Num (1#32) / (Site 6 * Site 6));
    Num (83143#10000) * Var 0 * (Num (1#8) / (Site 2 * Site 2) - Num (1#32) / (Site 6 * Site 6));
    Num (83143#10000) * Var 0 * (Num (1#8) / (Site 2 * Site 2) - Num (1#32) / (Site 6 * Site 6))];
    [Num (83143#10000) * Var 0 * (Num (1#8) / (Site 2 * Site 2) - Num (1#32) / (Site 6 * Site 6));
    Num (83143#10000) * Var 0 * (Num (-1#8) / (Site 0 * Site 0) + Num (1#8) / (Site 2 * Site 2) + Num (1#32) / (Site 4 * Site 4) - Num (1#32) / (Site 6 * Site 6));
    Num (83143#10000) * Var 0 * (Num (1#8) / (Site 2 * Site 2) - Num (1#32) / (Site 6 * Site 6))];
    [Num (83143#10000) * Var 0 * (Num (1#8) / (Site 2 * Site 2) - Num (1#32) / (Site 6 * Site 6));
    Num (83143#10000) * Var 0 * (Num (1#8) / (Site 2 * Site 2) - Num (1#32) / (Site 6 * Site 6));
    Num (83143#10000) * Var 0 * (Num (1#8) / (Site 2 * Site 2) - Num (1#32) / (Site 6 * Site 6))]];
    [[Num (83143#10000) * Var 0 * (Num (1#8) / (Site 2 * Site 2) - Num (1#32) / (Site 6 * Site 6));
    Num (83143#10000) * Var 0 * (Num (1#8) / (Site 2 * Site 2) - Num (1#32) / (Site 6 * Site 6));
    Num (83143#10000) * Var 0 * (Num (1#8) / (Site 2 * Site 2) - Num (1#32) / (Site 6 * Site 6))];
    [Num (83143#10000) * Var 0 * (Num (1#8) / (Site 2 * Site 2) - Num (1#32) / (Site 6 * Site 6));
    Num (83143#10000) * Var 0 * (Num (1#8) / (Site 2 * Site 2) - Num (1#32) / (Site 6 * Site 6));
    Num (83143#10000) * Var 0 * (Num (1#8) / (Site 2 * Site 2) - Num (1#32) / (Site 6 * Site 6))];
    [Num (83143#10000) * Var 0 * (Num (1#8) / (Site 2 * Site 2) - Num (1#32) / (Site 6 * Site 6));
    Num (83143#10000) * Var 0 * (Num (1#8) / (Site 2 * Site 2) - Num (1#32) / (Site 6 * Site 6));
    Num (83143#10000) * Var 0 * (Num (-1#8) / (Site 1 * Site 1) + Num (1#8) / (Site 2 * Site 2) + Num (1#32) / (Site 5 * Site 5) - Num (1#32) / (Site 6 * Site 6))]]].
(** sources/ortho-oxide.c 538-1423: macro fillD3GDS2DT *)
Definition oOox_d3gds2dt :=
  [[Num (83143#10000) * (Num (1#4) / Site 2 + Num (1#4) / Site 3 + Num (1#8) / Site 6 + Num (1#8) / Site 7);
    Num (83143#10000) * (Num (1#4) / Site 2 + Num (1#8) / Site 6);
    Num (83143#10000) * (Num (1#4) / Site 2 + Num (1#8) / Site 6)];
    [Num (83143#10000) * (Num (1#4) / Site 2 + Num (1#8) / Site 6);
    Num (83143#10000) * (Num (1#4) / Site 0 + Num (1#4) / Site 2 + Num (1#8) / Site 4 + Num (1#8) / Site 6);
    Num (83143#10000) * (Num (1#4) / Site 2 + Num (1#8) / Site 6)];
    [Num (83143#10000) * (Num (1#4) / Site 2 + Num (1#8) / Site 6);
    Num (83143#10000) * (Num (1#4) / Site 2 + Num (1#8) / Site 6);
    Num (83143#10000) * (Num (1#4) / Site 1 + Num (1#4) / Site 2 + Num (1#8) / Site 5 + Num (1#8) / Site 6)]].
(** sources/ortho-oxide.c 542-1431: macro fillD3GDS2DP *)
Definition oOox_d3gds2dp :=
  [[Num (0#1);
    Num (0#1);
    Num (0#1)];
    [Num (0#1);
    Num (0#1);
    Num (0#1)];
    [Num (0#1);
    Num (0#1);
    Num (0#1)]].
(** sources/ortho-oxide.c 546-1439: macro fillD3GDSDT2 *)
Definition oOox_d3gdsdt2 :=
  [Num (0#1);
    Num (0#1);
    Num (0#1)].
(** sources/ortho-oxide.c 550-1442: macro fillD3GDSDTDP *)
Definition oOox_d3gdsdtdp :=
  [Num (0#1);
    Num (0#1);
    Num (0#1)].
(** sources/ortho-oxide.c 554-1446: macro fillD3GDSDP2 *)
Definition oOox_d3gdsdp2 :=
  [Num (0#1);
    Num (0#1);
    Num (0#1)].
(** sources/ortho-oxide.c 1449: macro fillD3GDRDT2 *)
Definition oOox_d3gdrdt2 :=
  [Num (0#1);
    Num (0#1)].
(** sources/ortho-oxide.c 1452: macro fillD3GDRDTDP *)
Definition oOox_d3gdrdtdp :=
  [Num (0#1);
    Num (0#1)].
(** sources/ortho-oxide.c 1455: macro fillD3GDRDP2 *)
Definition oOox_d3gdrdp2 :=
  [Num (0#1);
    Num (0#1)].
(** sources/ortho-oxide.c 1211: macro D2GDT2 *)
Definition oOox_D2GDT2 :=
  Num (0#1).
(** sources/ortho-oxide.c 1212: macro D2GDTDP *)
Definition oOox_D2GDTDP :=
  Num (0#1).
(** sources/ortho-oxide.c 1213: macro D2GDP2 *)
Definition oOox_D2GDP2 :=
  Num (0#1).
(** sources/ortho-oxide.c 1319: macro D3GDT3 *)
Definition oOox_D3GDT3 :=
  Num (0#1).
(** sources/ortho-oxide.c 1320: macro D3GDT2DP *)
Definition oOox_D3GDT2DP :=
  Num (0#1).
(** sources/ortho-oxide.c 1321: macro D3GDTDP2 *)
Definition oOox_D3GDTDP2 :=
  Num (0#1).
(** sources/ortho-oxide.c 1322: macro D3GDP3 *)
Definition oOox_D3GDP3 :=
  Num (0#1).
(** sources/ortho-oxide.c 1128: macro ENDMEMBERS *)
Definition oOox_end :=
  (Num (1#1) - Var 2 - Var 3) * Var 60 + Var 2 * Var 61 + Var 3 * Var 62.
(** sources/ortho-oxide.c 1130-1131: macros DENDDRi *)
Definition oOox_dend :=
  [Var 61 - Var 60;
    Var 62 - Var 60].
(** sources/ortho-oxide.c, order: the site fractions and their clamps *)
Definition oOox_sites := [mkSite ((Var 2 + Var 41) / Num (2#1)) Low0;
    mkSite ((Var 3 + Var 42) / Num (2#1)) Low0;
    mkSite ((Num (1#1) - Var 40 - Var 41 - Var 42) / Num (2#1)) Low0;
    mkSite ((Num (1#1) - Var 2 - Var 3 + Var 40) / Num (2#1)) Low0;
    mkSite ((Var 2 - Var 41) / Num (4#1)) Low0;
    mkSite ((Var 3 - Var 42) / Num (4#1)) Low0;
    mkSite ((Num (1#1) + Num (2#1) * Var 2 + Num (2#1) * Var 3 + Var 40 + Var 41 + Var 42) / Num (4#1)) Low0;
    mkSite ((Num (3#1) - Num (3#1) * Var 2 - Num (3#1) * Var 3 - Var 40) / Num (4#1)) Low0].
Definition oOox := mkOrd "ortho-oxide" 3 2 3 LU false oOox_sites (Some (oOox_end, oOox_dend)) oOox_g oOox_s oOox_v oOox_r1 oOox_s1
  oOox_d2gdr2 oOox_d2gdrds oOox_d2gdrdt oOox_d2gdrdp oOox_d2gds2 oOox_d2gdsdt oOox_d2gdsdp oOox_d3gdr3 oOox_d3gdr2ds oOox_d3gdr2dt oOox_d3gdr2dp oOox_d3gdrds2 oOox_d3gdrdsdt oOox_d3gdrdsdp oOox_d3gds3 oOox_d3gds2dt oOox_d3gds2dp oOox_d3gdsdt2 oOox_d3gdsdtdp oOox_d3gdsdp2 oOox_d3gdrdt2 oOox_d3gdrdtdp oOox_d3gdrdp2 oOox_D2GDT2 oOox_D2GDTDP oOox_D2GDP2 oOox_D3GDT3 oOox_D3GDT2DP oOox_D3GDTDP2 oOox_D3GDP3.
(** sources/orthopyroxene.c 1977: macro G *)
Definition oOpx_g :=
  (- Var 0) * (Num (-83143#10000) * (Site 7 * Log 7 + Site 5 * Log 5 + Site 4 * Log 4 + Site 6 * Log 6 + Site 0 * Log 0 + (Site 7 + Site 5 - Site 0) * Log 12 - (Num (1#1) - Site 0) * Log 13 - (Site 7 + Site 5) * Log 14 - Num (2#1) * (Num (1#1) - Site 3) * Log 15 + Num (2#1) * Site 10 * Log 10 + Num (2#1) * Site 11 * Log 11 + Site 1 * Log 1 + Site 2 * Log 2 + Site 9 * Log 9 + Site 8 * Log 8 + (Num (1#1) - Site 7 - Site 5 - Site 2) * Log 16 - (Num (1#1) - Site 7 - Site 5) * Log 17 - (Num (1#1) - Site 2) * Log 18)) + Num (2914679#1250) - Var 0 * Num (17259#12500) + (Var 1 - Num (1#1)) * Num (4707#62500) + (Num (10108021#1250) - Var 0 * Num (-51777#62500) + (Var 1 - Num (1#1)) * Num (185549#5000000)) * Var 2 + (Num (48881871#1250) - Var 0 * Num (-42259#12500) + (Var 1 - Num (1#1)) * Num (-63301#500000)) * Var 3 + (Num (52019371#1250) - Var 0 * Num (-42259#12500) + (Var 1 - Num (1#1)) * Num (-63301#500000)) * Var 4 + (Num (57980771#1250) - Var 0 * Num (-42259#12500) + (Var 1 - Num (1#1)) * Num (-63301#500000)) * Var 5 + (Num (-4567329#2500) - Var 0 * Num (-42259#25000) + (Var 1 - Num (1#1)) * Num (-63301#1000000)) * Var 6 + (Num (14004371#1250) - Var 0 * Num (-59808711#12500000) + (Var 1 - Num (1#1)) * Num (-371979#2500000)) * Var 7 + Num (-66928#25) * Var 40 + (Num (-38179#5) + (Var 1 - Num (1#1)) * Num (-238091#2500000)) * Var 41 + (Num (-8368#1) + (Var 1 - Num (1#1)) * Num (-14121#1000000)) * Var 2 * Var 2 + (Num (-9618#1) + (Var 1 - Num (1#1)) * Num (-14121#2000000)) * Var 2 * Var 3 + (Num (-472924#25) + (Var 1 - Num (1#1)) * Num (-14121#2000000)) * Var 2 * Var 4 + (Num (-4297319#200) + (Var 1 - Num (1#1)) * Num (-14121#1000000)) * Var 2 * Var 5 + (Num (-2437531#400) + (Var 1 - Num (1#1)) * Num (-14121#2000000)) * Var 2 * Var 6 + (Num (176251#25) - Var 0 * Num (-7247211#6250000) + (Var 1 - Num (1#1)) * Num (-65879#5000000)) * Var 2 * Var 7 + Num (-763929#200) * Var 2 * Var 40 + (Num (-53869#5) + (Var 1 - Num (1#1)) * Num (8891#62500)) * Var 2 * Var 41 + Num (-16318#1) * Var 3 * Var 3 + Num (-18357#1) * Var 3 * Var 4 + Num (-136636#25) * Var 3 * Var 5 + Num (40802#5) * Var 3 * Var 6 + (Num (-496999#200) - Var 0 * Num (-7247211#25000000) + (Var 1 - Num (1#1)) * Num (-306081#5000000)) * Var 3 * Var 7 + Num (-493611#25) * Var 3 * Var 40 + (Num (1186947#200) - Var 0 * Num (-7247211#25000000) + (Var 1 - Num (1#1)) * Num (363359#5000000)) * Var 3 * Var 41 + Num (-18828#1) * Var 4 * Var 4 + Num (-797597#50) * Var 4 * Var 5 + Num (465043#20) * Var 4 * Var 6 + (Num (86663#40) - Var 0 * Num (-7247211#25000000) + (Var 1 - Num (1#1)) * Num (-306081#5000000)) * Var 4 * Var 7 + Num (167353#50) * Var 4 * Var 40 + (Num (254647#40) - Var 0 * Num (-7247211#25000000) + (Var 1 - Num (1#1)) * Num (363359#5000000)) * Var 4 * Var 41 + Num (-9937#1) * Var 5 * Var 5 + Num (-64905#4) * Var 5 * Var 6 + (Num (-44944#5) - Var 0 * Num (-7247211#12500000) + (Var 1 - Num (1#1)) * Num (-81191#2500000)) * Var 5 * Var 7 + Num (-4131#2) * Var 5 * Var 40 + (Num (-206653#50) - Var 0 * Num (-7247211#12500000) + (Var 1 - Num (1#1)) * Num (253529#2500000)) * Var 5 * Var 41 + Num (69887#8) * Var 6 * Var 6 + (Num (-2796023#200) - Var 0 * Num (-7247211#25000000) + (Var 1 - Num (1#1)) * Num (-81191#5000000)) * Var 6 * Var 7 + Num (-7322#1) * Var 6 * Var 40 + (Num (289929#50) - Var 0 * Num (-7247211#25000000) + (Var 1 - Num (1#1)) * Num (253529#5000000)) * Var 6 * Var 41 + (Num (-1408439#50) - Var 0 * Num (7247211#12500000) + (Var 1 - Num (1#1)) * Num (-15627#1250000)) * Var 7 * Var 7 + Num (212047#50) * Var 7 * Var 40 + (Num (69559#25) - Var 0 * Num (7247211#12500000) + (Var 1 - Num (1#1)) * Num (55041#2500000)) * Var 7 * Var 41 + Num (-17835#2) * Var 40 * Var 40 + Num (780493#100) * Var 40 * Var 41 + (Num (156377#10) + (Var 1 - Num (1#1)) * Num (-74789#500000)) * Var 41 * Var 41 + (Num (2092#5) + (Var 1 - Num (1#1)) * Num (-3661#250000)) * Var 2 * Var 2 * Var 7 + (Num (-2092#5) + (Var 1 - Num (1#1)) * Num (3661#250000)) * Var 2 * Var 2 * Var 41 + (Num (-4184#5) + (Var 1 - Num (1#1)) * Num (3661#125000)) * Var 2 * Var 3 * Var 7 + (Num (50208#5) + (Var 1 - Num (1#1)) * Num (-8891#125000)) * Var 2 * Var 3 * Var 41 + (Num (-4184#5) + (Var 1 - Num (1#1)) * Num (3661#125000)) * Var 2 * Var 4 * Var 7 + (Num (50208#5) + (Var 1 - Num (1#1)) * Num (-8891#125000)) * Var 2 * Var 4 * Var 41 + (Num (-4184#5) + (Var 1 - Num (1#1)) * Num (3661#125000)) * Var 2 * Var 5 * Var 7 + (Num (50208#5) + (Var 1 - Num (1#1)) * Num (-8891#125000)) * Var 2 * Var 5 * Var 41 + (Num (-2092#5) + (Var 1 - Num (1#1)) * Num (3661#250000)) * Var 2 * Var 6 * Var 7 + (Num (25104#5) + (Var 1 - Num (1#1)) * Num (-8891#250000)) * Var 2 * Var 6 * Var 41 + (Num (-11506#5) + (Var 1 - Num (1#1)) * Num (40271#500000)) * Var 2 * Var 7 * Var 7 + (Num (102508#5) + (Var 1 - Num (1#1)) * Num (-1569#10000)) * Var 2 * Var 7 * Var 41 + (Num (1046#5) + (Var 1 - Num (1#1)) * Num (-3661#500000)) * Var 2 * Var 41 * Var 41 + (Num (-13598#5) + (Var 1 - Num (1#1)) * Num (1569#62500)) * Var 3 * Var 3 * Var 7 + (Num (13598#5) + (Var 1 - Num (1#1)) * Num (-1569#62500)) * Var 3 * Var 3 * Var 41 + (Num (-32949#5) + (Var 1 - Num (1#1)) * Num (27719#500000)) * Var 3 * Var 4 * Var 7 + (Num (21443#5) + (Var 1 - Num (1#1)) * Num (-22489#500000)) * Var 3 * Var 4 * Var 41 + (Num (-21443#5) + (Var 1 - Num (1#1)) * Num (22489#500000)) * Var 3 * Var 5 * Var 7 + (Num (32949#5) + (Var 1 - Num (1#1)) * Num (-27719#500000)) * Var 3 * Var 5 * Var 41 + (Num (-13598#5) + (Var 1 - Num (1#1)) * Num (1569#62500)) * Var 3 * Var 6 * Var 7 + (Num (13598#5) + (Var 1 - Num (1#1)) * Num (-1569#62500)) * Var 3 * Var 6 * Var 41 + (Num (-42363#10) + (Var 1 - Num (1#1)) * Num (25627#1000000)) * Var 3 * Var 7 * Var 7 + (Num (6276#5) + (Var 1 - Num (1#1)) * Num (-10983#250000)) * Var 3 * Var 7 * Var 41 + (Num (-108261#10) + (Var 1 - Num (1#1)) * Num (16213#200000)) * Var 3 * Var 41 * Var 41 + (Num (-13598#5) + (Var 1 - Num (1#1)) * Num (1569#62500)) * Var 4 * Var 4 * Var 7 + (Num (13598#5) + (Var 1 - Num (1#1)) * Num (-1569#62500)) * Var 4 * Var 4 * Var 41 + (Num (-21443#5) + (Var 1 - Num (1#1)) * Num (22489#500000)) * Var 4 * Var 5 * Var 7 + (Num (32949#5) + (Var 1 - Num (1#1)) * Num (-27719#500000)) * Var 4 * Var 5 * Var 41 + (Num (-1569#1) + (Var 1 - Num (1#1)) * Num (9937#500000)) * Var 4 * Var 6 * Var 7 + (Num (19351#5) + (Var 1 - Num (1#1)) * Num (-15167#500000)) * Var 4 * Var 6 * Var 41 + (Num (-42363#10) + (Var 1 - Num (1#1)) * Num (25627#1000000)) * Var 4 * Var 7 * Var 7 + (Num (6276#5) + (Var 1 - Num (1#1)) * Num (-10983#250000)) * Var 4 * Var 7 * Var 41 + (Num (-108261#10) + (Var 1 - Num (1#1)) * Num (16213#200000)) * Var 4 * Var 41 * Var 41 + (Num (-2092#5) + (Var 1 - Num (1#1)) * Num (3661#250000)) * Var 5 * Var 5 * Var 7 + (Num (25104#5) + (Var 1 - Num (1#1)) * Num (-8891#250000)) * Var 5 * Var 5 * Var 41 + (Num (-2092#5) + (Var 1 - Num (1#1)) * Num (3661#250000)) * Var 5 * Var 6 * Var 7 + (Num (25104#5) + (Var 1 - Num (1#1)) * Num (-8891#250000)) * Var 5 * Var 6 * Var 41 + (Num (-1046#5) + (Var 1 - Num (1#1)) * Num (3661#500000)) * Var 5 * Var 7 * Var 7 + (Num (29288#5) + (Var 1 - Num (1#1)) * Num (-16213#250000)) * Var 5 * Var 7 * Var 41 + (Num (-51254#5) + (Var 1 - Num (1#1)) * Num (1569#20000)) * Var 5 * Var 41 * Var 41 + (Num (3661#20) + (Var 1 - Num (1#1)) * Num (4707#2000000)) * Var 6 * Var 6 * Var 7 + (Num (30857#20) + (Var 1 - Num (1#1)) * Num (-20397#2000000)) * Var 6 * Var 6 * Var 41 + (Num (-523#5) + (Var 1 - Num (1#1)) * Num (3661#1000000)) * Var 6 * Var 7 * Var 7 + (Num (14644#5) + (Var 1 - Num (1#1)) * Num (-16213#500000)) * Var 6 * Var 7 * Var 41 + (Num (-25627#5) + (Var 1 - Num (1#1)) * Num (1569#40000)) * Var 6 * Var 41 * Var 41 + (Num (6276#5) + (Var 1 - Num (1#1)) * Num (-10983#250000)) * Var 7 * Var 7 * Var 7 + (Num (-8368#1) + (Var 1 - Num (1#1)) * Num (1569#125000)) * Var 7 * Var 7 * Var 41 + (Num (-102508#5) + (Var 1 - Num (1#1)) * Num (1569#10000)) * Var 7 * Var 41 * Var 41.
(** sources/orthopyroxene.c 1878: macro S *)
Definition oOpx_s :=
  Num (-83143#10000) * (Site 7 * Log 7 + Site 5 * Log 5 + Site 4 * Log 4 + Site 6 * Log 6 + Site 0 * Log 0 + (Site 7 + Site 5 - Site 0) * Log 12 - (Num (1#1) - Site 0) * Log 13 - (Site 7 + Site 5) * Log 14 - Num (2#1) * (Num (1#1) - Site 3) * Log 15 + Num (2#1) * Site 10 * Log 10 + Num (2#1) * Site 11 * Log 11 + Site 1 * Log 1 + Site 2 * Log 2 + Site 9 * Log 9 + Site 8 * Log 8 + (Num (1#1) - Site 7 - Site 5 - Site 2) * Log 16 - (Num (1#1) - Site 7 - Site 5) * Log 17 - (Num (1#1) - Site 2) * Log 18) + Num (17259#12500) + Num (-51777#62500) * Var 2 + Num (-42259#12500) * Var 3 + Num (-42259#12500) * Var 4 + Num (-42259#12500) * Var 5 + Num (-42259#25000) * Var 6 + Num (-59808711#12500000) * Var 7 + Num (-7247211#6250000) * Var 2 * Var 7 + Num (-7247211#25000000) * Var 3 * Var 7 + Num (-7247211#25000000) * Var 3 * Var 41 + Num (-7247211#25000000) * Var 4 * Var 7 + Num (-7247211#25000000) * Var 4 * Var 41 + Num (-7247211#12500000) * Var 5 * Var 7 + Num (-7247211#12500000) * Var 5 * Var 41 + Num (-7247211#25000000) * Var 6 * Var 7 + Num (-7247211#25000000) * Var 6 * Var 41 + Num (7247211#12500000) * Var 7 * Var 7 + Num (7247211#12500000) * Var 7 * Var 41.
(** sources/orthopyroxene.c 2289: macro DGDP *)
Definition oOpx_v :=
  Num (4707#62500) + Num (185549#5000000) * Var 2 + Num (-63301#500000) * Var 3 + Num (-63301#500000) * Var 4 + Num (-63301#500000) * Var 5 + Num (-63301#1000000) * Var 6 + Num (-371979#2500000) * Var 7 + Num (-238091#2500000) * Var 41 + Num (-14121#1000000) * Var 2 * Var 2 + Num (-14121#2000000) * Var 2 * Var 3 + Num (-14121#2000000) * Var 2 * Var 4 + Num (-14121#1000000) * Var 2 * Var 5 + Num (-14121#2000000) * Var 2 * Var 6 + Num (-65879#5000000) * Var 2 * Var 7 + Num (8891#62500) * Var 2 * Var 41 + Num (-306081#5000000) * Var 3 * Var 7 + Num (363359#5000000) * Var 3 * Var 41 + Num (-306081#5000000) * Var 4 * Var 7 + Num (363359#5000000) * Var 4 * Var 41 + Num (-81191#2500000) * Var 5 * Var 7 + Num (253529#2500000) * Var 5 * Var 41 + Num (-81191#5000000) * Var 6 * Var 7 + Num (253529#5000000) * Var 6 * Var 41 + Num (-15627#1250000) * Var 7 * Var 7 + Num (55041#2500000) * Var 7 * Var 41 + Num (-74789#500000) * Var 41 * Var 41 + Num (-3661#250000) * Var 2 * Var 2 * Var 7 + Num (3661#250000) * Var 2 * Var 2 * Var 41 + Num (3661#125000) * Var 2 * Var 3 * Var 7 + Num (-8891#125000) * Var 2 * Var 3 * Var 41 + Num (3661#125000) * Var 2 * Var 4 * Var 7 + Num (-8891#125000) * Var 2 * Var 4 * Var 41 + Num (3661#125000) * Var 2 * Var 5 * Var 7 + Num (-8891#125000) * Var 2 * Var 5 * Var 41 + Num (3661#250000) * Var 2 * Var 6 * Var 7 + Num (-8891#250000) * Var 2 * Var 6 * Var 41 + Num (40271#500000) * Var 2 * Var 7 * Var 7 + Num (-1569#10000) * Var 2 * Var 7 * Var 41 + Num (-3661#500000) * Var 2 * Var 41 * Var 41 + Num (1569#62500) * Var 3 * Var 3 * Var 7 + Num (-1569#62500) * Var 3 * Var 3 * Var 41 + Num (27719#500000) * Var 3 * Var 4 * Var 7 + Num (-22489#500000) * Var 3 * Var 4 * Var 41 + Num (22489#500000) * Var 3 * Var 5 * Var 7 + Num (-27719#500000) * Var 3 * Var 5 * Var 41 + Num (1569#62500) * Var 3 * Var 6 * Var 7 + Num (-1569#62500) * Var 3 * Var 6 * Var 41 + Num (25627#1000000) * Var 3 * Var 7 * Var 7 + Num (-10983#250000) * Var 3 * Var 7 * Var 41 + Num (16213#200000) * Var 3 * Var 41 * Var 41 + Num (1569#62500) * Var 4 * Var 4 * Var 7 + Num (-1569#62500) * Var 4 * Var 4 * Var 41 + Num (22489#500000) * Var 4 * Var 5 * Var 7 + Num (-27719#500000) * Var 4 * Var 5 * Var 41 + Num (9937#500000) * Var 4 * Var 6 * Var 7 + Num (-15167#500000) * Var 4 * Var 6 * Var 41 + Num (25627#1000000) * Var 4 * Var 7 * Var 7 + Num (-10983#250000) * Var 4 * Var 7 * Var 41 + Num (16213#200000) * Var 4 * Var 41 * Var 41 + Num (3661#250000) * Var 5 * Var 5 * Var 7 + Num (-8891#250000) * Var 5 * Var 5 * Var 41 + Num (3661#250000) * Var 5 * Var 6 * Var 7 + Num (-8891#250000) * Var 5 * Var 6 * Var 41 + Num (3661#500000) * Var 5 * Var 7 * Var 7 + Num (-16213#250000) * Var 5 * Var 7 * Var 41 + Num (1569#20000) * Var 5 * Var 41 * Var 41 + Num (4707#2000000) * Var 6 * Var 6 * Var 7 + Num (-20397#2000000) * Var 6 * Var 6 * Var 41 + Num (3661#1000000) * Var 6 * Var 7 * Var 7 + Num (-16213#500000) * Var 6 * Var 7 * Var 41 + Num (1569#40000) * Var 6 * Var 41 * Var 41 + Num (-10983#250000) * Var 7 * Var 7 * Var 7 + Num (1569#125000) * Var 7 * Var 7 * Var 41 + Num (1569#10000) * Var 7 * Var 41 * Var 41.
(** sources/orthopyroxene.c 2073-2202: macros DGDRi *)
Definition oOpx_r1 :=
  [Num (83143#10000) * Var 0 * (Log 5 - Log 7) + (Num (10108021#1250) - Var 0 * Num (-51777#62500) + (Var 1 - Num (1#1)) * Num (185549#5000000)) + (Num (-8368#1) + (Var 1 - Num (1#1)) * Num (-14121#1000000)) * Var 2 * Num (2#1) + (Num (-9618#1) + (Var 1 - Num (1#1)) * Num (-14121#2000000)) * Var 3 + (Num (-472924#25) + (Var 1 - Num (1#1)) * Num (-14121#2000000)) * Var 4 + (Num (-4297319#200) + (Var 1 - Num (1#1)) * Num (-14121#1000000)) * Var 5 + (Num (-2437531#400) + (Var 1 - Num (1#1)) * Num (-14121#2000000)) * Var 6 + (Num (176251#25) - Var 0 * Num (-7247211#6250000) + (Var 1 - Num (1#1)) * Num (-65879#5000000)) * Var 7 + Num (-763929#200) * Var 40 + (Num (-53869#5) + (Var 1 - Num (1#1)) * Num (8891#62500)) * Var 41 + (Num (2092#5) + (Var 1 - Num (1#1)) * Num (-3661#250000)) * Var 2 * Var 7 * Num (2#1) + (Num (-2092#5) + (Var 1 - Num (1#1)) * Num (3661#250000)) * Var 2 * Var 41 * Num (2#1) + (Num (-4184#5) + (Var 1 - Num (1#1)) * Num (3661#125000)) * Var 3 * Var 7 + (Num (50208#5) + (Var 1 - Num (1#1)) * Num (-8891#125000)) * Var 3 * Var 41 + (Num (-4184#5) + (Var 1 - Num (1#1)) * Num (3661#125000)) * Var 4 * Var 7 + (Num (50208#5) + (Var 1 - Num (1#1)) * Num (-8891#125000)) * Var 4 * Var 41 + (Num (-4184#5) + (Var 1 - Num (1#1)) * Num (3661#125000)) * Var 5 * Var 7 + (Num (50208#5) + (Var 1 - Num (1#1)) * Num (-8891#125000)) * Var 5 * Var 41 + (Num (-2092#5) + (Var 1 - Num (1#1)) * Num (3661#250000)) * Var 6 * Var 7 + (Num (25104#5) + (Var 1 - Num (1#1)) * Num (-8891#250000)) * Var 6 * Var 41 + (Num (-11506#5) + (Var 1 - Num (1#1)) * Num (40271#500000)) * Var 7 * Var 7 + (Num (102508#5) + (Var 1 - Num (1#1)) * Num (-1569#10000)) * Var 7 * Var 41 + (Num (1046#5) + (Var 1 - Num (1#1)) * Num (-3661#500000)) * Var 41 * Var 41;
    Num (83143#10000) * Var 0 * (Num (1#2) * Log 0 - Num (1#2) * Log 7 + Num (1#2) * Log 13 - Log 12 + Num (1#2) * Log 14 + Num (1#2) * Log 16 - Log 15 - Num (1#2) * Log 17 + Log 10) + (Num (48881871#1250) - Var 0 * Num (-42259#12500) + (Var 1 - Num (1#1)) * Num (-63301#500000)) + (Num (-9618#1) + (Var 1 - Num (1#1)) * Num (-14121#2000000)) * Var 2 + Num (-16318#1) * Var 3 * Num (2#1) + Num (-18357#1) * Var 4 + Num (-136636#25) * Var 5 + Num (40802#5) * Var 6 + (Num (-496999#200) - Var 0 * Num (-7247211#25000000) + (Var 1 - Num (1#1)) * Num (-306081#5000000)) * Var 7 + Num (-493611#25) * Var 40 + (Num (1186947#200) - Var 0 * Num (-7247211#25000000) + (Var 1 - Num (1#1)) * Num (363359#5000000)) * Var 41 + (Num (-4184#5) + (Var 1 - Num (1#1)) * Num (3661#125000)) * Var 2 * Var 7 + (Num (50208#5) + (Var 1 - Num (1#1)) * Num (-8891#125000)) * Var 2 * Var 41 + (Num (-13598#5) + (Var 1 - Num (1#1)) * Num (1569#62500)) * Var 3 * Var 7 * Num (2#1) + (Num (13598#5) + (Var 1 - Num (1#1)) * Num (-1569#62500)) * Var 3 * Var 41 * Num (2#1) + (Num (-32949#5) + (Var 1 - Num (1#1)) * Num (27719#500000)) * Var 4 * Var 7 + (Num (21443#5) + (Var 1 - Num (1#1)) * Num (-22489#500000)) * Var 4 * Var 41 + (Num (-21443#5) + (Var 1 - Num (1#1)) * Num (22489#500000)) * Var 5 * Var 7 + (Num (32949#5) + (Var 1 - Num (1#1)) * Num (-27719#500000)) * Var 5 * Var 41 + (Num (-13598#5) + (Var 1 - Num (1#1)) * Num (1569#62500)) * Var 6 * Var 7 + (Num (13598#5) + (Var 1 - Num (1#1)) * Num (-1569#62500)) * Var 6 * Var 41 + (Num (-42363#10) + (Var 1 - Num (1#1)) * Num (25627#1000000)) * Var 7 * Var 7 + (Num (6276#5) + (Var 1 - Num (1#1)) * Num (-10983#250000)) * Var 7 * Var 41 + (Num (-108261#10) + (Var 1 - Num (1#1)) * Num (16213#200000)) * Var 41 * Var 41;
    Num (83143#10000) * Var 0 * (Num (1#2) * Log 0 - Num (1#2) * Log 7 + Num (1#2) * Log 13 - Log 12 + Num (1#2) * Log 14 + Num (1#2) * Log 16 - Log 15 - Num (1#2) * Log 17 + Log 11) + (Num (52019371#1250) - Var 0 * Num (-42259#12500) + (Var 1 - Num (1#1)) * Num (-63301#500000)) + (Num (-472924#25) + (Var 1 - Num (1#1)) * Num (-14121#2000000)) * Var 2 + Num (-18357#1) * Var 3 + Num (-18828#1) * Var 4 * Num (2#1) + Num (-797597#50) * Var 5 + Num (465043#20) * Var 6 + (Num (86663#40) - Var 0 * Num (-7247211#25000000) + (Var 1 - Num (1#1)) * Num (-306081#5000000)) * Var 7 + Num (167353#50) * Var 40 + (Num (254647#40) - Var 0 * Num (-7247211#25000000) + (Var 1 - Num (1#1)) * Num (363359#5000000)) * Var 41 + (Num (-4184#5) + (Var 1 - Num (1#1)) * Num (3661#125000)) * Var 2 * Var 7 + (Num (50208#5) + (Var 1 - Num (1#1)) * Num (-8891#125000)) * Var 2 * Var 41 + (Num (-32949#5) + (Var 1 - Num (1#1)) * Num (27719#500000)) * Var 3 * Var 7 + (Num (21443#5) + (Var 1 - Num (1#1)) * Num (-22489#500000)) * Var 3 * Var 41 + (Num (-13598#5) + (Var 1 - Num (1#1)) * Num (1569#62500)) * Var 4 * Var 7 * Num (2#1) + (Num (13598#5) + (Var 1 - Num (1#1)) * Num (-1569#62500)) * Var 4 * Var 41 * Num (2#1) + (Num (-21443#5) + (Var 1 - Num (1#1)) * Num (22489#500000)) * Var 5 * Var 7 + (Num (32949#5) + (Var 1 - Num (1#1)) * Num (-27719#500000)) * Var 5 * Var 41 + (Num (-1569#1) + (Var 1 - Num (1#1)) * Num (9937#500000)) * Var 6 * Var 7 + (Num (19351#5) + (Var 1 - Num (1#1)) * Num (-15167#500000)) * Var 6 * Var 41 + (Num (-42363#10) + (Var 1 - Num (1#1)) * Num (25627#1000000)) * Var 7 * Var 7 + (Num (6276#5) + (Var 1 - Num (1#1)) * Num (-10983#250000)) * Var 7 * Var 41 + (Num (-108261#10) + (Var 1 - Num (1#1)) * Num (16213#200000)) * Var 41 * Var 41;
    Num (83143#10000) * Var 0 * (Num (1#2) * Log 4 + Num (1#2) * Log 6 - Log 7 - Log 12 + Log 14 - Log 15 + Num (1#2) * Log 10 + Num (1#2) * Log 11 + Log 16 - Log 17) + (Num (57980771#1250) - Var 0 * Num (-42259#12500) + (Var 1 - Num (1#1)) * Num (-63301#500000)) + (Num (-4297319#200) + (Var 1 - Num (1#1)) * Num (-14121#1000000)) * Var 2 + Num (-136636#25) * Var 3 + Num (-797597#50) * Var 4 + Num (-9937#1) * Var 5 * Num (2#1) + Num (-64905#4) * Var 6 + (Num (-44944#5) - Var 0 * Num (-7247211#12500000) + (Var 1 - Num (1#1)) * Num (-81191#2500000)) * Var 7 + Num (-4131#2) * Var 40 + (Num (-206653#50) - Var 0 * Num (-7247211#12500000) + (Var 1 - Num (1#1)) * Num (253529#2500000)) * Var 41 + (Num (-4184#5) + (Var 1 - Num (1#1)) * Num (3661#125000)) * Var 2 * Var 7 + (Num (50208#5) + (Var 1 - Num (1#1)) * Num (-8891#125000)) * Var 2 * Var 41 + (Num (-21443#5) + (Var 1 - Num (1#1)) * Num (22489#500000)) * Var 3 * Var 7 + (Num (32949#5) + (Var 1 - Num (1#1)) * Num (-27719#500000)) * Var 3 * Var 41 + (Num (-21443#5) + (Var 1 - Num (1#1)) * Num (22489#500000)) * Var 4 * Var 7 + (Num (32949#5) + (Var 1 - Num (1#1)) * Num (-27719#500000)) * Var 4 * Var 41 + (Num (-2092#5) + (Var 1 - Num (1#1)) * Num (3661#250000)) * Var 5 * Var 7 * Num (2#1) + (Num (25104#5) + (Var 1 - Num (1#1)) * Num (-8891#250000)) * Var 5 * Var 41 * Num (2#1) + (Num (-2092#5) + (Var 1 - Num (1#1)) * Num (3661#250000)) * Var 6 * Var 7 + (Num (25104#5) + (Var 1 - Num (1#1)) * Num (-8891#250000)) * Var 6 * Var 41 + (Num (-1046#5) + (Var 1 - Num (1#1)) * Num (3661#500000)) * Var 7 * Var 7 + (Num (29288#5) + (Var 1 - Num (1#1)) * Num (-16213#250000)) * Var 7 * Var 41 + (Num (-51254#5) + (Var 1 - Num (1#1)) * Num (1569#20000)) * Var 41 * Var 41;
    Num (83143#10000) * Var 0 * (Num (1#4) * Log 4 + Num (1#4) * Log 6 - Num (1#2) * Log 7 - Num (1#2) * Log 12 + Num (1#2) * Log 14 + Num (1#2) * Log 15 - Num (1#4) * Log 10 - Num (1#4) * Log 11 - Log 1 + Log 2 - Num (1#2) * Log 16 - Num (1#2) * Log 17 + Log 18) + (Num (-4567329#2500) - Var 0 * Num (-42259#25000) + (Var 1 - Num (1#1)) * Num (-63301#1000000)) + (Num (-2437531#400) + (Var 1 - Num (1#1)) * Num (-14121#2000000)) * Var 2 + Num (40802#5) * Var 3 + Num (465043#20) * Var 4 + Num (-64905#4) * Var 5 + Num (69887#8) * Var 6 * Num (2#1) + (Num (-2796023#200) - Var 0 * Num (-7247211#25000000) + (Var 1 - Num (1#1)) * Num (-81191#5000000)) * Var 7 + Num (-7322#1) * Var 40 + (Num (289929#50) - Var 0 * Num (-7247211#25000000) + (Var 1 - Num (1#1)) * Num (253529#5000000)) * Var 41 + (Num (-2092#5) + (Var 1 - Num (1#1)) * Num (3661#250000)) * Var 2 * Var 7 + (Num (25104#5) + (Var 1 - Num (1#1)) * Num (-8891#250000)) * Var 2 * Var 41 + (Num (-13598#5) + (Var 1 - Num (1#1)) * Num (1569#62500)) * Var 3 * Var 7 + (Num (13598#5) + (Var 1 - Num (1#1)) * Num (-1569#62500)) * Var 3 * Var 41 + (Num (-1569#1) + (Var 1 - Num (1#1)) * Num (9937#500000)) * Var 4 * Var 7 + (Num (19351#5) + (Var 1 - Num (1#1)) * Num (-15167#500000)) * Var 4 * Var 41 + (Num (-2092#5) + (Var 1 - Num (1#1)) * Num (3661#250000)) * Var 5 * Var 7 + (Num (25104#5) + (Var 1 - Num (1#1)) * Num (-8891#250000)) * Var 5 * Var 41 + (Num (3661#20) + (Var 1 - Num (1#1)) * Num (4707#2000000)) * Var 6 * Var 7 * Num (2#1) + (Num (30857#20) + (Var 1 - Num (1#1)) * Num (-20397#2000000)) * Var 6 * Var 41 * Num (2#1) + (Num (-523#5) + (Var 1 - Num (1#1)) * Num (3661#1000000)) * Var 7 * Var 7 + (Num (14644#5) + (Var 1 - Num (1#1)) * Num (-16213#500000)) * Var 7 * Var 41 + (Num (-25627#5) + (Var 1 - Num (1#1)) * Num (1569#40000)) * Var 41 * Var 41;
    Num (83143#20000) * Var 0 * (Log 7 - Num (2#1) * Log 1 + Log 9 + (Log 8 - Log 5)) + (Num (14004371#1250) - Var 0 * Num (-59808711#12500000) + (Var 1 - Num (1#1)) * Num (-371979#2500000)) + (Num (176251#25) - Var 0 * Num (-7247211#6250000) + (Var 1 - Num (1#1)) * Num (-65879#5000000)) * Var 2 + (Num (-496999#200) - Var 0 * Num (-7247211#25000000) + (Var 1 - Num (1#1)) * Num (-306081#5000000)) * Var 3 + (Num (86663#40) - Var 0 * Num (-7247211#25000000) + (Var 1 - Num (1#1)) * Num (-306081#5000000)) * Var 4 + (Num (-44944#5) - Var 0 * Num (-7247211#12500000) + (Var 1 - Num (1#1)) * Num (-81191#2500000)) * Var 5 + (Num (-2796023#200) - Var 0 * Num (-7247211#25000000) + (Var 1 - Num (1#1)) * Num (-81191#5000000)) * Var 6 + (Num (-1408439#50) - Var 0 * Num (7247211#12500000) + (Var 1 - Num (1#1)) * Num (-15627#1250000)) * Var 7 * Num (2#1) + Num (212047#50) * Var 40 + (Num (69559#25) - Var 0 * Num (7247211#12500000) + (Var 1 - Num (1#1)) * Num (55041#2500000)) * Var 41 + (Num (2092#5) + (Var 1 - Num (1#1)) * Num (-3661#250000)) * Var 2 * Var 2 + (Num (-4184#5) + (Var 1 - Num (1#1)) * Num (3661#125000)) * Var 2 * Var 3 + (Num (-4184#5) + (Var 1 - Num (1#1)) * Num (3661#125000)) * Var 2 * Var 4 + (Num (-4184#5) + (Var 1 - Num (1#1)) * Num (3661#125000)) * Var 2 * Var 5 + (Num (-2092#5) + (Var 1 - Num (1#1)) * Num (3661#250000)) * Var 2 * Var 6 + (Num (-11506#5) + (Var 1 - Num (1#1)) * Num (40271#500000)) * Var 2 * Var 7 * Num (2#1) + (Num (102508#5) + (Var 1 - Num (1#1)) * Num (-1569#10000)) * Var 2 * Var 41 + (Num (-13598#5) + (Var 1 - Num (1#1)) * Num (1569#62500)) * Var 3 * Var 3 + (Num (-32949#5) + (Var 1 - Num (1#1)) * Num (27719#500000)) * Var 3 * Var 4 + (Num (-21443#5) + (Var 1 - Num (1#1)) * Num (22489#500000)) * Var 3 * Var 5 + (Num (-13598#5) + (Var 1 - Num (1#1)) * Num (1569#62500)) * Var 3 * Var 6 + (Num (-42363#10) + (Var 1 - Num (1#1)) * Num (25627#1000000)) * Var 3 * Var 7 * Num (2#1) + (Num (6276#5) + (Var 1 - Num (1#1)) * Num (-10983#250000)) * Var 3 * Var 41 + (Num (-13598#5) + (Var 1 - Num (1#1)) * Num (1569#62500)) * Var 4 * Var 4 + (Num (-21443#5) + (Var 1 - Num (1#1)) * Num (22489#500000)) * Var 4 * Var 5 + (Num (-1569#1) + (Var 1 - Num (1#1)) * Num (9937#500000)) * Var 4 * Var 6 + (Num (-42363#10) + (Var 1 - Num (1#1)) * Num (25627#1000000)) * Var 4 * Var 7 * Num (2#1) + (Num (6276#5) + (Var 1 - Num (1#1)) * Num (-10983#250000)) * Var 4 * Var 41 + (Num (-2092#5) + (Var 1 - Num (1#1)) * Num (3661#250000)) * Var 5 * Var 5 + (Num (-2092#5) + (Var 1 - Num (1#1)) * Num (3661#250000)) * Var 5 * Var 6 + (Num (-1046#5) + (Var 1 - Num (1#1)) * Num (3661#500000)) * Var 5 * Var 7 * Num (2#1) + (Num (29288#5) + (Var 1 - Num (1#1)) * Num (-16213#250000)) * Var 5 * Var 41 + (Num (3661#20) + (Var 1 - Num (1#1)) * Num (4707#2000000)) * Var 6 * Var 6 + (Num (-523#5) + (Var 1 - Num (1#1)) * Num (3661#1000000)) * Var 6 * Var 7 * Num (2#1) + (Num (14644#5) + (Var 1 - Num (1#1)) * Num (-16213#500000)) * Var 6 * Var 41 + (Num (6276#5) + (Var 1 - Num (1#1)) * Num (-10983#250000)) * Var 7 * Var 7 * Num (3#1) + (Num (-8368#1) + (Var 1 - Num (1#1)) * Num (1569#125000)) * Var 7 * Var 41 * Num (2#1) + (Num (-102508#5) + (Var 1 - Num (1#1)) * Num (1569#10000)) * Var 41 * Var 41].
(** sources/orthopyroxene.c 2241-2251: macros DGDSi *)
Definition oOpx_s1 :=
  [Num (83143#20000) * Var 0 * (Log 6 - Log 4 + Log 10 - Log 11) + Num (-66928#25) + Num (-763929#200) * Var 2 + Num (-493611#25) * Var 3 + Num (167353#50) * Var 4 + Num (-4131#2) * Var 5 + Num (-7322#1) * Var 6 + Num (212047#50) * Var 7 + Num (-17835#2) * Var 40 * Num (2#1) + Num (780493#100) * Var 41;
    Num (83143#20000) * Var 0 * (Log 7 - Log 5 + Log 8 - Log 9) + (Num (-38179#5) + (Var 1 - Num (1#1)) * Num (-238091#2500000)) + (Num (-53869#5) + (Var 1 - Num (1#1)) * Num (8891#62500)) * Var 2 + (Num (1186947#200) - Var 0 * Num (-7247211#25000000) + (Var 1 - Num (1#1)) * Num (363359#5000000)) * Var 3 + (Num (254647#40) - Var 0 * Num (-7247211#25000000) + (Var 1 - Num (1#1)) * Num (363359#5000000)) * Var 4 + (Num (-206653#50) - Var 0 * Num (-7247211#12500000) + (Var 1 - Num (1#1)) * Num (253529#2500000)) * Var 5 + (Num (289929#50) - Var 0 * Num (-7247211#25000000) + (Var 1 - Num (1#1)) * Num (253529#5000000)) * Var 6 + (Num (69559#25) - Var 0 * Num (7247211#12500000) + (Var 1 - Num (1#1)) * Num (55041#2500000)) * Var 7 + Num (780493#100) * Var 40 + (Num (156377#10) + (Var 1 - Num (1#1)) * Num (-74789#500000)) * Var 41 * Num (2#1) + (Num (-2092#5) + (Var 1 - Num (1#1)) * Num (3661#250000)) * Var 2 * Var 2 + (Num (50208#5) + (Var 1 - Num (1#1)) * Num (-8891#125000)) * Var 2 * Var 3 + (Num (50208#5) + (Var 1 - Num (1#1)) * Num (-8891#125000)) * Var 2 * Var 4 + (Num (50208#5) + (Var 1 - Num (1#1)) * Num (-8891#125000)) * Var 2 * Var 5 + (Num (25104#5) + (Var 1 - Num (1#1)) * Num (-8891#250000)) * Var 2 * Var 6 + (Num (102508#5) + (Var 1 - Num (1#1)) * Num (-1569#10000)) * Var 2 * Var 7 + (Num (1046#5) + (Var 1 - Num (1#1)) * Num (-3661#500000)) * Var 2 * Var 41 * Num (2#1) + (Num (13598#5) + (Var 1 - Num (1#1)) * Num (-1569#62500)) * Var 3 * Var 3 + (Num (21443#5) + (Var 1 - Num (1#1)) * Num (-22489#500000)) * Var 3 * Var 4 + (Num (32949#5) + (Var 1 - Num (1#1)) * Num (-27719#500000)) * Var 3 * Var 5 + (Num (13598#5) + (Var 1 - Num (1#1)) * Num (-1569#62500)) * Var 3 * Var 6 + (Num (6276#5) + (Var 1 - Num (1#1)) * Num (-10983#250000)) * Var 3 * Var 7 + (Num (-108261#10) + (Var 1 - Num (1#1)) * Num (16213#200000)) * Var 3 * Var 41 * Num (2#1) + (Num (13598#5) + (Var 1 - Num (1#1)) * Num (-1569#62500)) * Var 4 * Var 4 + (Num (32949#5) + (Var 1 - Num (1#1)) * Num (-27719#500000)) * Var 4 * Var 5 + (Num (19351#5) + (Var 1 - Num (1#1)) * Num (-15167#500000)) * Var 4 * Var 6 + (Num (6276#5) + (Var 1 - Num (1#1)) * Num (-10983#250000)) * Var 4 * Var 7 + (Num (-108261#10) + (Var 1 - Num (1#1)) * Num (16213#200000)) * Var 4 * Var 41 * Num (2#1) + (Num (25104#5) + (Var 1 - Num (1#1)) * Num (-8891#250000)) * Var 5 * Var 5 + (Num (25104#5) + (Var 1 - Num (1#1)) * Num (-8891#250000)) * Var 5 * Var 6 + (Num (29288#5) + (Var 1 - Num (1#1)) * Num (-16213#250000)) * Var 5 * Var 7 + (Num (-51254#5) + (Var 1 - Num (1#1)) * Num (1569#20000)) * Var 5 * Var 41 * Num (2#1) + (Num (30857#20) + (Var 1 - Num (1#1)) * Num (-20397#2000000)) * Var 6 * Var 6 + (Num (14644#5) + (Var 1 - Num (1#1)) * Num (-16213#500000)) * Var 6 * Var 7 + (Num (-25627#5) + (Var 1 - Num (1#1)) * Num (1569#40000)) * Var 6 * Var 41 * Num (2#1) + (Num (-8368#1) + (Var 1 - Num (1#1)) * Num (1569#125000)) * Var 7 * Var 7 + (Num (-102508#5) + (Var 1 - Num (1#1)) * Num (1569#10000)) * Var 7 * Var 41 * Num (2#1)].
(** sources/orthopyroxene.c 3085: macro fillD2GDR2 *)
Definition oOpx_d2gdr2 :=
  [[Num (83143#10000) * Var 0 * (Num (1#1) / Site 5 + Num (1#1) / Site 7) + (Num (-8368#1) + (Var 1 - Num (1#1)) * Num (-14121#1000000)) * Num (2#1) + (Num (2092#5) + (Var 1 - Num (1#1)) * Num (-3661#250000)) * Var 7 * Num (2#1) + (Num (-2092#5) + (Var 1 - Num (1#1)) * Num (3661#250000)) * Var 41 * Num (2#1);
    Num (83143#10000) * Var 0 * Num (1#2) / Site 7 + (Num (-9618#1) + (Var 1 - Num (1#1)) * Num (-14121#2000000)) + (Num (-4184#5) + (Var 1 - Num (1#1)) * Num (3661#125000)) * Var 7 + (Num (50208#5) + (Var 1 - Num (1#1)) * Num (-8891#125000)) * Var 41;
    Num (83143#10000) * Var 0 * Num (1#2) / Site 7 + (Num (-472924#25) + (Var 1 - Num (1#1)) * Num (-14121#2000000)) + (Num (-4184#5) + (Var 1 - Num (1#1)) * Num (3661#125000)) * Var 7 + (Num (50208#5) + (Var 1 - Num (1#1)) * Num (-8891#125000)) * Var 41;
    Num (83143#10000) * Var 0 / Site 7 + (Num (-4297319#200) + (Var 1 - Num (1#1)) * Num (-14121#1000000)) + (Num (-4184#5) + (Var 1 - Num (1#1)) * Num (3661#125000)) * Var 7 + (Num (50208#5) + (Var 1 - Num (1#1)) * Num (-8891#125000)) * Var 41;
    Num (83143#10000) * Var 0 * Num (1#2) / Site 7 + (Num (-2437531#400) + (Var 1 - Num (1#1)) * Num (-14121#2000000)) + (Num (-2092#5) + (Var 1 - Num (1#1)) * Num (3661#250000)) * Var 7 + (Num (25104#5) + (Var 1 - Num (1#1)) * Num (-8891#250000)) * Var 41;
    Num (-83143#10000) * Var 0 * Num (1#2) * (Num (1#1) / Site 5 + Num (1#1) / Site 7) + (Num (176251#25) - Var 0 * Num (-7247211#6250000) + (Var 1 - Num (1#1)) * Num (-65879#5000000)) + (Num (2092#5) + (Var 1 - Num (1#1)) * Num (-3661#250000)) * Var 2 * Num (2#1) + (Num (-4184#5) + (Var 1 - Num (1#1)) * Num (3661#125000)) * Var 3 + (Num (-4184#5) + (Var 1 - Num (1#1)) * Num (3661#125000)) * Var 4 + (Num (-4184#5) + (Var 1 - Num (1#1)) * Num (3661#125000)) * Var 5 + (Num (-2092#5) + (Var 1 - Num (1#1)) * Num (3661#250000)) * Var 6 + (Num (-11506#5) + (Var 1 - Num (1#1)) * Num (40271#500000)) * Var 7 * Num (2#1) + (Num (102508#5) + (Var 1 - Num (1#1)) * Num (-1569#10000)) * Var 41];
    [Num (83143#10000) * Var 0 * Num (1#2) / Site 7 + (Num (-9618#1) + (Var 1 - Num (1#1)) * Num (-14121#2000000)) + (Num (-4184#5) + (Var 1 - Num (1#1)) * Num (3661#125000)) * Var 7 + (Num (50208#5) + (Var 1 - Num (1#1)) * Num (-8891#125000)) * Var 41;
    Num (83143#10000) * Var 0 * (Num (1#4) / Site 0 + Num (1#4) / Site 7 - Num (1#4) / Site 13 + Num (1#1) / Site 12 - Num (1#4) / Site 14 + Num (1#4) / Site 16 - Num (1#2) / Site 15 - Num (1#4) / Site 17 + Num (1#2) / Site 10) + Num (-32636#1) + (Num (-13598#5) + (Var 1 - Num (1#1)) * Num (1569#62500)) * Var 7 * Num (2#1) + (Num (13598#5) + (Var 1 - Num (1#1)) * Num (-1569#62500)) * Var 41 * Num (2#1);
    Num (83143#10000) * Var 0 * (Num (1#4) / Site 0 + Num (1#4) / Site 7 - Num (1#4) / Site 13 + Num (1#1) / Site 12 - Num (1#4) / Site 14 + Num (1#4) / Site 16 - Num (1#2) / Site 15 - Num (1#4) / Site 17) + Num (-18357#1) + (Num (-32949#5) + (Var 1 - Num (1#1)) * Num (27719#500000)) * Var 7 + (Num (21443#5) + (Var 1 - Num (1#1)) * Num (-22489#500000)) * Var 41;
    Num (83143#10000) * Var 0 * (Num (1#2) / Site 7 + Num (1#1) / Site 12 - Num (1#2) / Site 14 + Num (1#2) / Site 16 - Num (1#2) / Site 15 - Num (1#2) / Site 17 + Num (1#4) / Site 10) + Num (-136636#25) + (Num (-21443#5) + (Var 1 - Num (1#1)) * Num (22489#500000)) * Var 7 + (Num (32949#5) + (Var 1 - Num (1#1)) * Num (-27719#500000)) * Var 41;
    Num (83143#10000) * Var 0 * (Num (1#4) / Site 7 + Num (1#2) / Site 12 - Num (1#4) / Site 14 - Num (1#4) / Site 16 + Num (1#4) / Site 15 - Num (1#4) / Site 17 - Num (1#8) / Site 10) + Num (40802#5) + (Num (-13598#5) + (Var 1 - Num (1#1)) * Num (1569#62500)) * Var 7 + (Num (13598#5) + (Var 1 - Num (1#1)) * Num (-1569#62500)) * Var 41;
    Num (-83143#10000) * Var 0 * Num (1#4) / Site 7 + (Num (-496999#200) - Var 0 * Num (-7247211#25000000) + (Var 1 - Num (1#1)) * Num (-306081#5000000)) + (Num (-4184#5) + (Var 1 - Num (1#1)) * Num (3661#125000)) * Var 2 + (Num (-13598#5) + (Var 1 - Num (1#1)) * Num (1569#62500)) * Var 3 * Num (2#1) + (Num (-32949#5) + (Var 1 - Num (1#1)) * Num (27719#500000)) * Var 4 + (Num (-21443#5) + (Var 1 - Num (1#1)) * Num (22489#500000)) * Var 5 + (Num (-13598#5) + (Var 1 - Num (1#1)) * Num (1569#62500)) * Var 6 + (Num (-42363#10) + (Var 1 - Num (1#1)) * Num (25627#1000000)) * Var 7 * Num (2#1) + (Num (6276#5) + (Var 1 - Num (1#1)) * Num (-10983#250000)) * Var 41];
    [Num (83143#10000) * Var 0 * Num (1#2) / Site 7 + (Num (-472924#25) + (Var 1 - Num (1#1)) * Num (-14121#2000000)) + (Num (-4184#5) + (Var 1 - Num (1#1)) * Num (3661#125000)) * Var 7 + (Num (50208#5) + (Var 1 - Num (1#1)) * Num (-8891#125000)) * Var 41;
    Num (83143#10000) * Var 0 * (Num (1#4) / Site 0 + Num (1#4) / Site 7 - Num (1#4) / Site 13 + Num (1#1) / Site 12 - Num (1#4) / Site 14 + Num (1#4) / Site 16 - Num (1#2) / Site 15 - Num (1#4) / Site 17) + Num (-18357#1) + (Num (-32949#5) + (Var 1 - Num (1#1)) * Num (27719#500000)) * Var 7 + (Num (21443#5) + (Var 1 - Num (1#1)) * Num (-22489#500000)) * Var 41;
    Num (83143#10000) * Var 0 * (Num (1#4) / Site 0 + Num (1#4) / Site 7 - Num (1#4) / Site 13 + Num (1#1) / Site 12 - Num (1#4) / Site 14 + Num (1#4) / Site 16 - Num (1#2) / Site 15 - Num (1#4) / Site 17 + Num (1#2) / Site 11) + Num (-37656#1) + (Num (-13598#5) + (Var 1 - Num (1#1)) * Num (1569#62500)) * Var 7 * Num (2#1) + (Num (13598#5) + (Var 1 - Num (1#1)) * Num (-1569#62500)) * Var 41 * Num (2#1);
    Num (83143#10000) * Var 0 * (Num (1#2) / Site 7 + Num (1#1) / Site 12 - Num (1#2) / Site 14 + Num (1#2) / Site 16 - Num (1#2) / Site 15 - Num (1#2) / Site 17 + Num (1#4) / Site 11) + Num (-797597#50) + (Num (-21443#5) + (Var 1 - Num (1#1)) * Num (22489#500000)) * Var 7 + (Num (32949#5) + (Var 1 - Num (1#1)) * Num (-27719#500000)) * Var 41;
    Num (83143#10000) * Var 0 * (Num (1#4) / Site 7 + Num (1#2) / Site 12 - Num (1#4) / Site 14 - Num (1#4) / Site 16 + Num (1#4) / Site 15 - Num (1#4) / Site 17 - Num (1#8) / Site 11) + Num (465043#20) + (Num (-1569#1) + (Var 1 - Num (1#1)) * Num (9937#500000)) * Var 7 + (Num (19351#5) + (Var 1 - Num (1#1)) * Num (-15167#500000)) * Var 41;
    Num (-83143#10000) * Var 0 * Num (1#4) / Site 7 + (Num (86663#40) - Var 0 * Num (-7247211#25000000) + (Var 1 - Num (1#1)) * Num (-306081#5000000)) + (Num (-4184#5) + (Var 1 - Num (1#1)) * Num (3661#125000)) * Var 2 + (Num (-32949#5) + (Var 1 - Num (1#1)) * Num (27719#500000)) * Var 3 + (Num (-13598#5) + (Var 1 - Num (1#1)) * Num (1569#62500)) * Var 4 * Num (2#1) + (Num (-21443#5) + (Var 1 - Num (1#1)) * Num (22489#500000)) * Var 5 + (Num (-1569#1) + (Var 1 - Num (1#1)) * Num (9937#500000)) * Var 6 + (Num (-42363#10) + (Var 1 - Num (1#1)) * Num (25627#1000000)) * Var 7 * Num (2#1) + (Num (6276#5) + (Var 1 - Num (1#1)) * Num (-10983#250000)) * Var 41];
    [Num (83143#10000) * Var 0 / Site 7 + (Num (-4297319#200) + (Var 1 - Num (1#1)) * Num (-14121#1000000)) + (Num (-4184#5) + (Var 1 - Num (1#1)) * Num (3661#125000)) * Var 7 + (Num (50208#5) + (Var 1 - Num (1#1)) * Num (-8891#125000)) * Var 41;
    Num (83143#10000) * Var 0 * (Num (1#2) / Site 7 + Num (1#1) / Site 12 - Num (1#2) / Site 14 + Num (1#2) / Site 16 - Num (1#2) / Site 15 - Num (1#2) / Site 17 + Num (1#4) / Site 10) + Num (-136636#25) + (Num (-21443#5) + (Var 1 - Num (1#1)) * Num (22489#500000)) * Var 7 + (Num (32949#5) + (Var 1 - Num (1#1)) * Num (-27719#500000)) * Var 41;
    Num (83143#10000) * Var 0 * (Num (1#2) / Site 7 + Num (1#1) / Site 12 - Num (1#2) / Site 14 + Num (1#2) / Site 16 - Num (1#2) / Site 15 - Num (1#2) / Site 17 + Num (1#4) / Site 11) + Num (-797597#50) + (Num (-21443#5) + (Var 1 - Num (1#1)) * Num (22489#500000)) * Var 7 + (Num (32949#5) + (Var 1 - Num (1#1)) * Num (-27719#500000)) * Var 41;
    Num (83143#10000) * Var 0 * (Num (1#4) / Site 4 + Num (1#4) / Site 6 + Num (1#1) / Site 7 + Num (1#1) / Site 12 - Num (1#1) / Site 14 - Num (1#2) / Site 15 + Num (1#8) / Site 10 + Num (1#8) / Site 11 + Num (1#1) / Site 16 - Num (1#1) / Site 17) + Num (-19874#1) + (Num (-2092#5) + (Var 1 - Num (1#1)) * Num (3661#250000)) * Var 7 * Num (2#1) + (Num (25104#5) + (Var 1 - Num (1#1)) * Num (-8891#250000)) * Var 41 * Num (2#1);
    Num (83143#10000) * Var 0 * (Num (1#8) / Site 4 + Num (1#8) / Site 6 + Num (1#2) / Site 7 + Num (1#2) / Site 12 - Num (1#2) / Site 14 + Num (1#4) / Site 15 - Num (1#16) / Site 10 - Num (1#16) / Site 11 - Num (1#2) / Site 16 - Num (1#2) / Site 17) + Num (-64905#4) + (Num (-2092#5) + (Var 1 - Num (1#1)) * Num (3661#250000)) * Var 7 + (Num (25104#5) + (Var 1 - Num (1#1)) * Num (-8891#250000)) * Var 41;
    Num (-83143#10000) * Var 0 * Num (1#2) / Site 7 + (Num (-44944#5) - Var 0 * Num (-7247211#12500000) + (Var 1 - Num (1#1)) * Num (-81191#2500000)) + (Num (-4184#5) + (Var 1 - Num (1#1)) * Num (3661#125000)) * Var 2 + (Num (-21443#5) + (Var 1 - Num (1#1)) * Num (22489#500000)) * Var 3 + (Num (-21443#5) + (Var 1 - Num (1#1)) * Num (22489#500000)) * Var 4 + (Num (-2092#5) + (Var 1 - Num (1#1)) * Num (3661#250000)) * Var 5 * Num (2#1) + (Num (-2092#5) + (Var 1 - Num (1#1)) * Num (3661#250000)) * Var 6 + (Num (-1046#5) + (Var 1 - Num (1#1)) * Num (3661#500000)) * Var 7 * Num (2#1) + (Num (29288#5) + (Var 1 - Num (1#1)) * Num (-16213#250000)) * Var 41];
    [Num (83143#10000) * Var 0 * Num (1#2) / Site 7 + (Num (-2437531#400) + (Var 1 - Num (1#1)) * Num (-14121#2000000)) + (Num (-2092#5) + (Var 1 - Num (1#1)) * Num (3661#250000)) * Var 7 + (Num (25104#5) + (Var 1 - Num (1#1)) * Num (-8891#250000)) * Var 41;
    Num (83143#10000) * Var 0 * (Num (1#4) / Site 7 + Num (1#2) / Site 12 - Num (1#4) / Site 14 - Num (1#4) / Site 16 + Num (1#4) / Site 15 - Num (1#4) / Site 17 - Num (1#8) / Site 10) + Num (40802#5) + (Num (-13598#5) + (Var 1 - Num (1#1)) * Num (1569#62500)) * Var 7 + (Num (13598#5) + (Var 1 - Num (1#1)) * Num (-1569#62500)) * Var 41;
    Num (83143#10000) * Var 0 * (Num (1#4) / Site 7 + Num (1#2) / Site 12 - Num (1#4) / Site 14 - Num (1#4) / Site 16 + Num (1#4) / Site 15 - Num (1#4) / Site 17 - Num (1#8) / Site 11) + Num (465043#20) + (Num (-1569#1) + (Var 1 - Num (1#1)) * Num (9937#500000)) * Var 7 + (Num (19351#5) + (Var 1 - Num (1#1)) * Num (-15167#500000)) * Var 41;
    Num (83143#10000) * Var 0 * (Num (1#8) / Site 4 + Num (1#8) / Site 6 + Num (1#2) / Site 7 + Num (1#2) / Site 12 - Num (1#2) / Site 14 + Num (1#4) / Site 15 - Num (1#16) / Site 10 - Num (1#16) / Site 11 - Num (1#2) / Site 16 - Num (1#2) / Site 17) + Num (-64905#4) + (Num (-2092#5) + (Var 1 - Num (1#1)) * Num (3661#250000)) * Var 7 + (Num (25104#5) + (Var 1 - Num (1#1)) * Num (-8891#250000)) * Var 41;
    Num (83143#10000) * Var 0 * (Num (1#16) / Site 4 + Num (1#16) / Site 6 + Num (1#4) / Site 7 + Num (1#4) / Site 12 - Num (1#4) / Site 14 - Num (1#8) / Site 15 + Num (1#32) / Site 10 + Num (1#32) / Site 11 + Num (1#1) / Site 1 + Num (1#1) / Site 2 + Num (1#4) / Site 16 - Num (1#4) / Site 17 - Num (1#1) / Site 18) + Num (69887#4) + (Num (3661#20) + (Var 1 - Num (1#1)) * Num (4707#2000000)) * Var 7 * Num (2#1) + (Num (30857#20) + (Var 1 - Num (1#1)) * Num (-20397#2000000)) * Var 41 * Num (2#1);
    Num (83143#10000) * Var 0 * (Num (-1#4) / Site 7 + Num (1#1) / Site 1) + (Num (-2796023#200) - Var 0 * Num (-7247211#25000000) + (Var 1 - Num (1#1)) * Num (-81191#5000000)) + (Num (-2092#5) + (Var 1 - Num (1#1)) * Num (3661#250000)) * Var 2 + (Num (-13598#5) + (Var 1 - Num (1#1)) * Num (1569#62500)) * Var 3 + (Num (-1569#1) + (Var 1 - Num (1#1)) * Num (9937#500000)) * Var 4 + (Num (-2092#5) + (Var 1 - Num (1#1)) * Num (3661#250000)) * Var 5 + (Num (3661#20) + (Var 1 - Num (1#1)) * Num (4707#2000000)) * Var 6 * Num (2#1) + (Num (-523#5) + (Var 1 - Num (1#1)) * Num (3661#1000000)) * Var 7 * Num (2#1) + (Num (14644#5) + (Var 1 - Num (1#1)) * Num (-16213#500000)) * Var 41];
    [Num (-83143#10000) * Var 0 * Num (1#2) * (Num (1#1) / Site 5 + Num (1#1) / Site 7) + (Num (176251#25) - Var 0 * Num (-7247211#6250000) + (Var 1 - Num (1#1)) * Num (-65879#5000000)) + (Num (2092#5) + (Var 1 - Num (1#1)) * Num (-3661#250000)) * Var 2 * Num (2#1) + (Num (-4184#5) + (Var 1 - Num (1#1)) * Num (3661#125000)) * Var 3 + (Num (-4184#5) + (Var 1 - Num (1#1)) * Num (3661#125000)) * Var 4 + (Num (-4184#5) + (Var 1 - Num (1#1)) * Num (3661#125000)) * Var 5 + (Num (-2092#5) + (Var 1 - Num (1#1)) * Num (3661#250000)) * Var 6 + (Num (-11506#5) + (Var 1 - Num (1#1)) * Num (40271#500000)) * Var 7 * Num (2#1) + (Num (102508#5) + (Var 1 - Num (1#1)) * Num (-1569#10000)) * Var 41;
    Num (-83143#10000) * Var 0 * Num (1#4) / Site 7 + (Num (-496999#200) - Var 0 * Num (-7247211#25000000) + (Var 1 - Num (1#1)) * Num (-306081#5000000)) + (Num (-4184#5) + (Var 1 - Num (1#1)) * Num (3661#125000)) * Var 2 + (Num (-13598#5) + (Var 1 - Num (1#1)) * Num (1569#62500)) * Var 3 * Num (2#1) + (Num (-32949#5) + (Var 1 - Num (1#1)) * Num (27719#500000)) * Var 4 + (Num (-21443#5) + (Var 1 - Num (1#1)) * Num (22489#500000)) * Var 5 + (Num (-13598#5) + (Var 1 - Num (1#1)) * Num (1569#62500)) * Var 6 + (Num (-42363#10) + (Var 1 - Num (1#1)) * Num (25627#1000000)) * Var 7 * Num (2#1) + (Num (6276#5) + (Var 1 - Num (1#1)) * Num (-10983#250000)) * Var 41;
    Num (-83143#10000) * Var 0 * Num (1#4) / Site 7 + (Num (86663#40) - Var 0 * Num (-7247211#25000000) + (Var 1 - Num (1#1)) * Num (-306081#5000000)) + (Num (-4184#5) + (Var 1 - Num (1#1)) * Num (3661#125000)) * Var 2 + (Num (-32949#5) + (Var 1 - Num (1#1)) * Num (27719#500000)) * Var 3 + (Num (-13598#5) + (Var 1 - Num (1#1)) * Num (1569#62500)) * Var 4 * Num (2#1) + (Num (-21443#5) + (Var 1 - Num (1#1)) * Num (22489#500000)) * Var 5 + (Num (-1569#1) + (Var 1 - Num (1#1)) * Num (9937#500000)) * Var 6 + (Num (-42363#10) + (Var 1 - Num (1#1)) * Num (25627#1000000)) * Var 7 * Num (2#1) + (Num (6276#5) + (Var 1 - Num (1#1)) * Num (-10983#250000)) * Var 41;
    Num (-83143#10000) * Var 0 * Num (1#2) / Site 7 + (Num (-44944#5) - Var 0 * Num (-7247211#12500000) + (Var 1 - Num (1#1)) * Num (-81191#2500000)) + (Num (-4184#5) + (Var 1 - Num (1#1)) * Num (3661#125000)) * Var 2 + (Num (-21443#5) + (Var 1 - Num (1#1)) * Num (22489#500000)) * Var 3 + (Num (-21443#5) + (Var 1 - Num (1#1)) * Num (22489#500000)) * Var 4 + (Num (-2092#5) + (Var 1 - Num (1#1)) * Num (3661#250000)) * Var 5 * Num (2#1) + (Num (-2092#5) + (Var 1 - Num (1#1)) * Num (3661#250000)) * Var 6 + (Num (-1046#5) + (Var 1 - Num (1#1)) * Num (3661#500000)) * Var 7 * Num (2#1) + (Num (29288#5) + (Var 1 - Num (1#1)) * Num (-16213#250000)) * Var 41;
    Num (83143#10000) * Var 0 * (Num (-1#4) / Site 7 + Num (1#1) / Site 1) + (Num (-2796023#200) - Var 0 * Num (-7247211#25000000) + (Var 1 - Num (1#1)) * Num (-81191#5000000)) + (Num (-2092#5) + (Var 1 - Num (1#1)) * Num (3661#250000)) * Var 2 + (Num (-13598#5) + (Var 1 - Num (1#1)) * Num (1569#62500)) * Var 3 + (Num (-1569#1) + (Var 1 - Num (1#1)) * Num (9937#500000)) * Var 4 + (Num (-2092#5) + (Var 1 - Num (1#1)) * Num (3661#250000)) * Var 5 + (Num (3661#20) + (Var 1 - Num (1#1)) * Num (4707#2000000)) * Var 6 * Num (2#1) + (Num (-523#5) + (Var 1 - Num (1#1)) * Num (3661#1000000)) * Var 7 * Num (2#1) + (Num (14644#5) + (Var 1 - Num (1#1)) * Num (-16213#500000)) * Var 41;
    Num (83143#10000) * Var 0 * (Num (1#4) / Site 7 + Num (1#4) / Site 5 + Num (1#1) / Site 1 + Num (1#4) / Site 9 + Num (1#4) / Site 8) + (Num (-1408439#50) - Var 0 * Num (7247211#12500000) + (Var 1 - Num (1#1)) * Num (-15627#1250000)) * Num (2#1) + (Num (-11506#5) + (Var 1 - Num (1#1)) * Num (40271#500000)) * Var 2 * Num (2#1) + (Num (-42363#10) + (Var 1 - Num (1#1)) * Num (25627#1000000)) * Var 3 * Num (2#1) + (Num (-42363#10) + (Var 1 - Num (1#1)) * Num (25627#1000000)) * Var 4 * Num (2#1) + (Num (-1046#5) + (Var 1 - Num (1#1)) * Num (3661#500000)) * Var 5 * Num (2#1) + (Num (-523#5) + (Var 1 - Num (1#1)) * Num (3661#1000000)) * Var 6 * Num (2#1) + (Num (6276#5) + (Var 1 - Num (1#1)) * Num (-10983#250000)) * Var 7 * Num (6#1) + (Num (-8368#1) + (Var 1 - Num (1#1)) * Num (1569#125000)) * Var 41 * Num (2#1)]].
(** sources/orthopyroxene.c 3105: macro fillD2GDRDS *)
Definition oOpx_d2gdrds :=
  [[Num (-763929#200);
    Num (-83143#10000) * Var 0 * Num (1#2) * (Num (1#1) / Site 5 + Num (1#1) / Site 7) + (Num (-53869#5) + (Var 1 - Num (1#1)) * Num (8891#62500)) + (Num (-2092#5) + (Var 1 - Num (1#1)) * Num (3661#250000)) * Var 2 * Num (2#1) + (Num (50208#5) + (Var 1 - Num (1#1)) * Num (-8891#125000)) * Var 3 + (Num (50208#5) + (Var 1 - Num (1#1)) * Num (-8891#125000)) * Var 4 + (Num (50208#5) + (Var 1 - Num (1#1)) * Num (-8891#125000)) * Var 5 + (Num (25104#5) + (Var 1 - Num (1#1)) * Num (-8891#250000)) * Var 6 + (Num (102508#5) + (Var 1 - Num (1#1)) * Num (-1569#10000)) * Var 7 + (Num (1046#5) + (Var 1 - Num (1#1)) * Num (-3661#500000)) * Var 41 * Num (2#1)];
    [Num (83143#10000) * Var 0 * Num (1#4) / Site 10 + Num (-493611#25);
    Num (-83143#10000) * Var 0 * Num (1#4) / Site 7 + (Num (1186947#200) - Var 0 * Num (-7247211#25000000) + (Var 1 - Num (1#1)) * Num (363359#5000000)) + (Num (50208#5) + (Var 1 - Num (1#1)) * Num (-8891#125000)) * Var 2 + (Num (13598#5) + (Var 1 - Num (1#1)) * Num (-1569#62500)) * Var 3 * Num (2#1) + (Num (21443#5) + (Var 1 - Num (1#1)) * Num (-22489#500000)) * Var 4 + (Num (32949#5) + (Var 1 - Num (1#1)) * Num (-27719#500000)) * Var 5 + (Num (13598#5) + (Var 1 - Num (1#1)) * Num (-1569#62500)) * Var 6 + (Num (6276#5) + (Var 1 - Num (1#1)) * Num (-10983#250000)) * Var 7 + (Num (-108261#10) + (Var 1 - Num (1#1)) * Num (16213#200000)) * Var 41 * Num (2#1)];
    [Num (-83143#10000) * Var 0 * Num (1#4) / Site 11 + Num (167353#50);
    Num (-83143#10000) * Var 0 * Num (1#4) / Site 7 + (Num (254647#40) - Var 0 * Num (-7247211#25000000) + (Var 1 - Num (1#1)) * Num (363359#5000000)) + (Num (50208#5) + (Var 1 - Num (1#1)) * Num (-8891#125000)) * Var 2 + (Num (21443#5) + (Var 1 - Num (1#1)) * Num (-22489#500000)) * Var 3 + (Num (13598#5) + (Var 1 - Num (1#1)) * Num (-1569#62500)) * Var 4 * Num (2#1) + (Num (32949#5) + (Var 1 - Num (1#1)) * Num (-27719#500000)) * Var 5 + (Num (19351#5) + (Var 1 - Num (1#1)) * Num (-15167#500000)) * Var 6 + (Num (6276#5) + (Var 1 - Num (1#1)) * Num (-10983#250000)) * Var 7 + (Num (-108261#10) + (Var 1 - Num (1#1)) * Num (16213#200000)) * Var 41 * Num (2#1)];
    [Num (83143#10000) * Var 0 * Num (1#4) * (Num (1#1) / Site 6 - Num (1#1) / Site 4 + Num (1#2) / Site 10 - Num (1#2) / Site 11) + Num (-4131#2);
    Num (-83143#10000) * Var 0 * Num (1#2) / Site 7 + (Num (-206653#50) - Var 0 * Num (-7247211#12500000) + (Var 1 - Num (1#1)) * Num (253529#2500000)) + (Num (50208#5) + (Var 1 - Num (1#1)) * Num (-8891#125000)) * Var 2 + (Num (32949#5) + (Var 1 - Num (1#1)) * Num (-27719#500000)) * Var 3 + (Num (32949#5) + (Var 1 - Num (1#1)) * Num (-27719#500000)) * Var 4 + (Num (25104#5) + (Var 1 - Num (1#1)) * Num (-8891#250000)) * Var 5 * Num (2#1) + (Num (25104#5) + (Var 1 - Num (1#1)) * Num (-8891#250000)) * Var 6 + (Num (29288#5) + (Var 1 - Num (1#1)) * Num (-16213#250000)) * Var 7 + (Num (-51254#5) + (Var 1 - Num (1#1)) * Num (1569#20000)) * Var 41 * Num (2#1)];
    [Num (83143#10000) * Var 0 * (Num (-1#8) / Site 4 + Num (1#8) / Site 6 - Num (1#16) / Site 10 + Num (1#16) / Site 11) + Num (-7322#1);
    Num (-83143#10000) * Var 0 * Num (1#4) / Site 7 + (Num (289929#50) - Var 0 * Num (-7247211#25000000) + (Var 1 - Num (1#1)) * Num (253529#5000000)) + (Num (25104#5) + (Var 1 - Num (1#1)) * Num (-8891#250000)) * Var 2 + (Num (13598#5) + (Var 1 - Num (1#1)) * Num (-1569#62500)) * Var 3 + (Num (19351#5) + (Var 1 - Num (1#1)) * Num (-15167#500000)) * Var 4 + (Num (25104#5) + (Var 1 - Num (1#1)) * Num (-8891#250000)) * Var 5 + (Num (30857#20) + (Var 1 - Num (1#1)) * Num (-20397#2000000)) * Var 6 * Num (2#1) + (Num (14644#5) + (Var 1 - Num (1#1)) * Num (-16213#500000)) * Var 7 + (Num (-25627#5) + (Var 1 - Num (1#1)) * Num (1569#40000)) * Var 41 * Num (2#1)];
    [Num (212047#50);
    Num (83143#10000) * Var 0 * (Num (1#4) / Site 7 + Num (1#4) / Site 5 - Num (1#4) / Site 9 + Num (1#4) / Site 8) + (Num (69559#25) - Var 0 * Num (7247211#12500000) + (Var 1 - Num (1#1)) * Num (55041#2500000)) + (Num (102508#5) + (Var 1 - Num (1#1)) * Num (-1569#10000)) * Var 2 + (Num (6276#5) + (Var 1 - Num (1#1)) * Num (-10983#250000)) * Var 3 + (Num (6276#5) + (Var 1 - Num (1#1)) * Num (-10983#250000)) * Var 4 + (Num (29288#5) + (Var 1 - Num (1#1)) * Num (-16213#250000)) * Var 5 + (Num (14644#5) + (Var 1 - Num (1#1)) * Num (-16213#500000)) * Var 6 + (Num (-8368#1) + (Var 1 - Num (1#1)) * Num (1569#125000)) * Var 7 * Num (2#1) + (Num (-102508#5) + (Var 1 - Num (1#1)) * Num (1569#10000)) * Var 41 * Num (2#1)]].
(** sources/orthopyroxene.c 3113: macro fillD2GDRDT *)
Definition oOpx_d2gdrdt :=
  [Num (83143#10000) * (Log 5 - Log 7) - Num (-51777#62500) - Num (-7247211#6250000) * Var 7;
    Num (83143#10000) * (Num (1#2) * Log 0 - Num (1#2) * Log 7 + Num (1#2) * Log 13 - Log 12 + Num (1#2) * Log 14 + Num (1#2) * Log 16 - Log 15 - Num (1#2) * Log 17 + Log 10) - Num (-42259#12500) - Num (-7247211#25000000) * Var 7 - Num (-7247211#25000000) * Var 41;
    Num (83143#10000) * (Num (1#2) * Log 0 - Num (1#2) * Log 7 + Num (1#2) * Log 13 - Log 12 + Num (1#2) * Log 14 + Num (1#2) * Log 16 - Log 15 - Num (1#2) * Log 17 + Log 11) - Num (-42259#12500) - Num (-7247211#25000000) * Var 7 - Num (-7247211#25000000) * Var 41;
    Num (83143#10000) * (Num (1#2) * Log 4 + Num (1#2) * Log 6 - Log 7 - Log 12 + Log 14 - Log 15 + Num (1#2) * Log 10 + Num (1#2) * Log 11 + Log 16 - Log 17) - Num (-42259#12500) - Num (-7247211#12500000) * Var 7 - Num (-7247211#12500000) * Var 41;
    Num (83143#10000) * (Num (1#4) * Log 4 + Num (1#4) * Log 6 - Num (1#2) * Log 7 - Num (1#2) * Log 12 + Num (1#2) * Log 14 + Num (1#2) * Log 15 - Num (1#4) * Log 10 - Num (1#4) * Log 11 - Log 1 + Log 2 - Num (1#2) * Log 16 - Num (1#2) * Log 17 + Log 18) - Num (-42259#25000) - Num (-7247211#25000000) * Var 7 - Num (-7247211#25000000) * Var 41;
    Num (83143#10000) * (Num (1#2) * Log 7 - Num (1#2) * Log 5 - Log 1 + Num (1#2) * Log 9 + Num (1#2) * Log 8) - Num (-59808711#12500000) - Num (-7247211#6250000) * Var 2 - Num (-7247211#25000000) * Var 3 - Num (-7247211#25000000) * Var 4 - Num (-7247211#12500000) * Var 5 - Num (-7247211#25000000) * Var 6 - Num (7247211#12500000) * Var 7 * Num (2#1) - Num (7247211#12500000) * Var 41].
(** sources/orthopyroxene.c 3117: macro fillD2GDRDP *)
Definition oOpx_d2gdrdp :=
  [Num (185549#5000000) + Num (-14121#1000000) * Var 2 * Num (2#1) + Num (-14121#2000000) * Var 3 + Num (-14121#2000000) * Var 4 + Num (-14121#1000000) * Var 5 + Num (-14121#2000000) * Var 6 + Num (-65879#5000000) * Var 7 + Num (8891#62500) * Var 41 + Num (-3661#250000) * Var 2 * Var 7 * Num (2#1) + Num (3661#250000) * Var 2 * Var 41 * Num (2#1) + Num (3661#125000) * Var 3 * Var 7 + Num (-8891#125000) * Var 3 * Var 41 + Num (3661#125000) * Var 4 * Var 7 + Num (-8891#125000) * Var 4 * Var 41 + Num (3661#125000) * Var 5 * Var 7 + Num (-8891#125000) * Var 5 * Var 41 + Num (3661#250000) * Var 6 * Var 7 + Num (-8891#250000) * Var 6 * Var 41 + Num (40271#500000) * Var 7 * Var 7 + Num (-1569#10000) * Var 7 * Var 41 + Num (-3661#500000) * Var 41 * Var 41;
    Num (-63301#500000) + Num (-14121#2000000) * Var 2 + Num (-306081#5000000) * Var 7 + Num (363359#5000000) * Var 41 + Num (3661#125000) * Var 2 * Var 7 + Num (-8891#125000) * Var 2 * Var 41 + Num (1569#62500) * Var 3 * Var 7 * Num (2#1) + Num (-1569#62500) * Var 3 * Var 41 * Num (2#1) + Num (27719#500000) * Var 4 * Var 7 + Num (-22489#500000) * Var 4 * Var 41 + Num (22489#500000) * Var 5 * Var 7 + Num (-27719#500000) * Var 5 * Var 41 + Num (1569#62500) * Var 6 * Var 7 + Num (-1569#62500) * Var 6 * Var 41 + Num (25627#1000000) * Var 7 * Var 7 + Num (-10983#250000) * Var 7 * Var 41 + Num (16213#200000) * Var 41 * Var 41;
    Num (-63301#500000) + Num (-14121#2000000) * Var 2 + Num (-306081#5000000) * Var 7 + Num (363359#5000000) * Var 41 + Num (3661#125000) * Var 2 * Var 7 + Num (-8891#125000) * Var 2 * Var 41 + Num (27719#500000) * Var 3 * Var 7 + Num (-22489#500000) * Var 3 * Var 41 + Num (1569#62500) * Var 4 * Var 7 * Num (2#1) + Num (-1569#62500) * Var 4 * Var 41 * Num (2#1) + Num (22489#500000) * Var 5 * Var 7 + Num (-27719#500000) * Var 5 * Var 41 + Num (9937#500000) * Var 6 * Var 7 + Num (-15167#500000) * Var 6 * Var 41 + Num (25627#1000000) * Var 7 * Var 7 + Num (-10983#250000) * Var 7 * Var 41 + Num (16213#200000) * Var 41 * Var 41;
    Num (-63301#500000) + Num (-14121#1000000) * Var 2 + Num (-81191#2500000) * Var 7 + Num (253529#2500000) * Var 41 + Num (3661#125000) * Var 2 * Var 7 + Num (-8891#125000) * Var 2 * Var 41 + Num (22489#500000) * Var 3 * Var 7 + Num (-27719#500000) * Var 3 * Var 41 + Num (22489#500000) * Var 4 * Var 7 + Num (-27719#500000) * Var 4 * Var 41 + Num (3661#250000) * Var 5 * Var 7 * Num (2#1) + Num (-8891#250000) * Var 5 * Var 41 * Num (2#1) + Num (3661#250000) * Var 6 * Var 7 + Num (-8891#250000) * Var 6 * Var 41 + Num (3661#500000) * Var 7 * Var 7 + Num (-16213#250000) * Var 7 * Var 41 + Num (1569#20000) * Var 41 * Var 41;
    Num (-63301#1000000) + Num (-14121#2000000) * Var 2 + Num (-81191#5000000) * Var 7 + Num (253529#5000000) * Var 41 + Num (3661#250000) * Var 2 * Var 7 + Num (-8891#250000) * Var 2 * Var 41 + Num (1569#62500) * Var 3 * Var 7 + Num (-1569#62500) * Var 3 * Var 41 + Num (9937#500000) * Var 4 * Var 7 + Num (-15167#500000) * Var 4 * Var 41 + Num (3661#250000) * Var 5 * Var 7 + Num (-8891#250000) * Var 5 * Var 41 + Num (4707#2000000) * Var 6 * Var 7 * Num (2#1) + Num (-20397#2000000) * Var 6 * Var 41 * Num (2#1) + Num (3661#1000000) * Var 7 * Var 7 + Num (-16213#500000) * Var 7 * Var 41 + Num (1569#40000) * Var 41 * Var 41;
    Num (-371979#2500000) + Num (-65879#5000000) * Var 2 + Num (-306081#5000000) * Var 3 + Num (-306081#5000000) * Var 4 + Num (-81191#2500000) * Var 5 + Num (-81191#5000000) * Var 6 + Num (-15627#1250000) * Var 7 * Num (2#1) + Num (55041#2500000) * Var 41 + Num (-3661#250000) * Var 2 * Var 2 + Num (3661#125000) * Var 2 * Var 3 + Num (3661#125000) * Var 2 * Var 4 + Num (3661#125000) * Var 2 * Var 5 + Num (3661#250000) * Var 2 * Var 6 + Num (40271#500000) * Var 2 * Var 7 * Num (2#1) + Num (-1569#10000) * Var 2 * Var 41 + Num (1569#62500) * Var 3 * Var 3 + Num (27719#500000) * Var 3 * Var 4 + Num (22489#500000) * Var 3 * Var 5 + Num (1569#62500) * Var 3 * Var 6 + Num (25627#1000000) * Var 3 * Var 7 * Num (2#1) + Num (-10983#250000) * Var 3 * Var 41 + Num (1569#62500) * Var 4 * Var 4 + Num (22489#500000) * Var 4 * Var 5 + Num (9937#500000) * Var 4 * Var 6 + Num (25627#1000000) * Var 4 * Var 7 * Num (2#1) + Num (-10983#250000) * Var 4 * Var 41 + Num (3661#250000) * Var 5 * Var 5 + Num (3661#250000) * Var 5 * Var 6 + Num (3661#500000) * Var 5 * Var 7 * Num (2#1) + Num (-16213#250000) * Var 5 * Var 41 + Num (4707#2000000) * Var 6 * Var 6 + Num (3661#1000000) * Var 6 * Var 7 * Num (2#1) + Num (-16213#500000) * Var 6 * Var 41 + Num (-10983#250000) * Var 7 * Var 7 * Num (3#1) + Num (1569#125000) * Var 7 * Var 41 * Num (2#1) + Num (1569#10000) * Var 41 * Var 41].
(** sources/orthopyroxene.c 3121: macro fillD2GDS2 *)
Definition oOpx_d2gds2 :=
  [[Num (83143#10000) * Var 0 * (Num (1#4) / Site 6 + Num (1#4) / Site 4 + Num (1#8) / Site 10 + Num (1#8) / Site 11) + Num (-17835#1);
    Num (780493#100)];
    [Num (780493#100);
    Num (83143#10000) * Var 0 * (Num (1#4) / Site 7 + Num (1#4) / Site 5 + Num (1#4) / Site 8 + Num (1#4) / Site 9) + (Num (156377#10) + (Var 1 - Num (1#1)) * Num (-74789#500000)) * Num (2#1) + (Num (1046#5) + (Var 1 - Num (1#1)) * Num (-3661#500000)) * Var 2 * Num (2#1) + (Num (-108261#10) + (Var 1 - Num (1#1)) * Num (16213#200000)) * Var 3 * Num (2#1) + (Num (-108261#10) + (Var 1 - Num (1#1)) * Num (16213#200000)) * Var 4 * Num (2#1) + (Num (-51254#5) + (Var 1 - Num (1#1)) * Num (1569#20000)) * Var 5 * Num (2#1) + (Num (-25627#5) + (Var 1 - Num (1#1)) * Num (1569#40000)) * Var 6 * Num (2#1) + (Num (-102508#5) + (Var 1 - Num (1#1)) * Num (1569#10000)) * Var 7 * Num (2#1)]].
(** sources/orthopyroxene.c 3125: macro fillD2GDSDT *)
Definition oOpx_d2gdsdt :=
  [Num (83143#20000) * (Log 6 - Log 4 + Log 10 - Log 11);
    Num (83143#20000) * (Log 7 - Log 5 + Log 8 - Log 9) - Num (-7247211#25000000) * Var 3 - Num (-7247211#25000000) * Var 4 - Num (-7247211#12500000) * Var 5 - Num (-7247211#25000000) * Var 6 - Num (7247211#12500000) * Var 7].
(** sources/orthopyroxene.c 3128: macro fillD2GDSDP *)
Definition oOpx_d2gdsdp :=
  [Num (0#1);
    Num (-238091#2500000) + Num (8891#62500) * Var 2 + Num (363359#5000000) * Var 3 + Num (363359#5000000) * Var 4 + Num (253529#2500000) * Var 5 + Num (253529#5000000) * Var 6 + Num (55041#2500000) * Var 7 + Num (-74789#500000) * Var 41 * Num (2#1) + Num (3661#250000) * Var 2 * Var 2 + Num (-8891#125000) * Var 2 * Var 3 + Num (-8891#125000) * Var 2 * Var 4 + Num (-8891#125000) * Var 2 * Var 5 + Num (-8891#250000) * Var 2 * Var 6 + Num (-1569#10000) * Var 2 * Var 7 + Num (-3661#500000) * Var 2 * Var 41 * Num (2#1) + Num (-1569#62500) * Var 3 * Var 3 + Num (-22489#500000) * Var 3 * Var 4 + Num (-27719#500000) * Var 3 * Var 5 + Num (-1569#62500) * Var 3 * Var 6 + Num (-10983#250000) * Var 3 * Var 7 + Num (16213#200000) * Var 3 * Var 41 * Num (2#1) + Num (-1569#62500) * Var 4 * Var 4 + Num (-27719#500000) * Var 4 * Var 5 + Num (-15167#500000) * Var 4 * Var 6 + Num (-10983#250000) * Var 4 * Var 7 + Num (16213#200000) * Var 4 * Var 41 * Num (2#1) + Num (-8891#250000) * Var 5 * Var 5 + Num (-8891#250000) * Var 5 * Var 6 + Num (-16213#250000) * Var 5 * Var 7 + Num (1569#20000) * Var 5 * Var 41 * Num (2#1) + Num (-20397#2000000) * Var 6 * Var 6 + Num (-16213#500000) * Var 6 * Var 7 + Num (1569#40000) * Var 6 * Var 41 * Num (2#1) + Num (1569#125000) * Var 7 * Var 7 + Num (1569#10000) * Var 7 * Var 41 * Num (2#1)].
(** sources/orthopyroxene.c 3131: macro fillD3GDR3 *)
Definition oOpx_d3gdr3 :=
  [[[Num (83143#10000) * Var 0 * (Num (-1#1) / (Site 5 * Site 5) + Num (1#1) / (Site 7 * Site 7));
    Num (83143#10000) * Var 0 * (Num (1#2) / (Site 7 * Site 7));
    Num (83143#10000) * Var 0 * (Num (1#2) / (Site 7 * Site 7));
    Num (83143#10000) * Var 0 * (Num (1#1) / (Site 7 * Site 7));
    Num (83143#10000) * Var 0 * (Num (1#2) / (Site 7 * Site 7));
    Num (83143#10000) * Var 0 * (Num (1#2) / (Site 5 * Site 5) - Num (1#2) / (Site 7 * Site 7)) + Num (2#1) * (Num (2092#5) + (Var 1 - Num (1#1)) * Num (-3661#250000))];
    [Num (83143#10000) * Var 0 * (Num (1#2) / (Site 7 * Site 7));
    Num (83143#10000) * Var 0 * (Num (1#4) / (Site 7 * Site 7));
    Num (83143#10000) * Var 0 * (Num (1#4) / (Site 7 * Site 7));
    Num (83143#10000) * Var 0 * (Num (1#2) / (Site 7 * Site 7));
    Num (83143#10000) * Var 0 * (Num (1#4) / (Site 7 * Site 7));
    Num (-83143#10000) * Var 0 * Num (1#4) / (Site 7 * Site 7) + (Num (-4184#5) + (Var 1 - Num (1#1)) * Num (3661#125000))];
    [Num (83143#10000) * Var 0 * (Num (1#2) / (Site 7 * Site 7));
    Num (83143#10000) * Var 0 * (Num (1#4) / (Site 7 * Site 7));
    Num (83143#10000) * Var 0 * (Num (1#4) / (Site 7 * Site 7));
    Num (83143#10000) * Var 0 * (Num (1#2) / (Site 7 * Site 7));
    Num (83143#10000) * Var 0 * (Num (1#4) / (Site 7 * Site 7));
    Num (-83143#10000) * Var 0 * Num (1#4) / (Site 7 * Site 7) + (Num (-4184#5) + (Var 1 - Num (1#1)) * Num (3661#125000))];
    [Num (83143#10000) * Var 0 * (Num (1#1) / (Site 7 * Site 7));
    Num (83143#10000) * Var 0 * (Num (1#2) / (Site 7 * Site 7));
    Num (83143#10000) * Var 0 * (Num (1#2) / (Site 7 * Site 7));
    Num (83143#10000) * Var 0 * (Num (1#1) / (Site 7 * Site 7));
    Num (83143#10000) * Var 0 * (Num (1#2) / (Site 7 * Site 7));
    Num (-83143#10000) * Var 0 * Num (1#2) / (Site 7 * Site 7) + (Num (-4184#5) + (Var 1 - Num (1#1)) * Num (3661#125000))];
    [Num (83143#10000) * Var 0 * (Num (1#2) / (Site 7 * Site 7));
    Num (83143#10000) * Var 0 * (Num (1#4) / (Site 7 * Site 7));
    Num (83143#10000) * Var 0 * (Num (1#4) / (Site 7 * Site 7));
    Num (83143#10000) * Var 0 * (Num (1#2) / (Site 7 * Site 7));
    Num (83143#10000) * Var 0 * (Num (1#4) / (Site 7 * Site 7));
    Num (-83143#10000) * Var 0 * Num (1#4) / (Site 7 * Site 7) + (Num (-2092#5) + (Var 1 - Num (1#1)) * Num (3661#250000))];
    [Num (83143#10000) * Var 0 * (Num (1#2) / (Site 5 * Site 5) - Num (1#2) / (Site 7 * Site 7)) + Num (2#1) * (Num (2092#5) + (Var 1 - Num (1#1)) * Num (-3661#250000));
    Num (-83143#10000) * Var 0 * Num (1#4) / (Site 7 * Site 7) + (Num (-4184#5) + (Var 1 - Num (1#1)) * Num (3661#125000));
    Num (-83143#10000) * Var 0 * Num (1#4) / (Site 7 * Site 7) + (Num (-4184#5) + (Var 1 - Num (1#1)) * Num (3661#125000));
    Num (-83143#10000) * Var 0 * Num (1#2) / (Site 7 * Site 7) + (Num (-4184#5) + (Var 1 - Num (1#1)) * Num (3661#125000));
    Num (-83143#10000) * Var 0 * Num (1#4) / (Site 7 * Site 7) + (Num (-2092#5) + (Var 1 - Num (1#1)) * Num (3661#250000));
    Num (83143#10000) * Var 0 * (Num (-1#4) / (Site 5 * Site 5) + Num (1#4) / (Site 7 * Site 7)) + Num (2#1) * (Num (-11506#5) + (Var 1 - Num (1#1)) * Num (40271#500000))]];
    [[Num (83143#10000) * Var 0 * (Num (1#2) / (Site 7 * Site 7));
    Num (83143#10000) * Var 0 * (Num (1#4) / (Site 7 * Site 7));
    Num (83143#10000) * Var 0 * (Num (1#4) / (Site 7 * Site 7));
    Num (83143#10000) * Var 0 * (Num (1#2) / (Site 7 * Site 7));
    Num (83143#10000) * Var 0 * (Num (1#4) / (Site 7 * Site 7));
    Num (-83143#10000) * Var 0 * Num (1#4) / (Site 7 * Site 7) + (Num (-4184#5) + (Var 1 - Num (1#1)) * Num (3661#125000))];
    [Num (83143#10000) * Var 0 * (Num (1#4) / (Site 7 * Site 7));
    Num (83143#10000) * Var 0 * (Num (-1#8) / (Site 0 * Site 0) + Num (1#8) / (Site 7 * Site 7) - Num (1#8) / (Site 13 * Site 13) + Num (1#1) / (Site 12 * Site 12) - Num (1#8) / (Site 14 * Site 14) + Num (1#4) / (Site 15 * Site 15) - Num (1#8) / (Site 16 * Site 16) + Num (1#8) / (Site 17 * Site 17) - Num (1#4) / (Site 10 * Site 10));
    Num (83143#10000) * Var 0 * (Num (-1#8) / (Site 0 * Site 0) + Num (1#8) / (Site 7 * Site 7) - Num (1#8) / (Site 13 * Site 13) + Num (1#1) / (Site 12 * Site 12) - Num (1#8) / (Site 14 * Site 14) + Num (1#4) / (Site 15 * Site 15) - Num (1#8) / (Site 16 * Site 16) + Num (1#8) / (Site 17 * Site 17));
    Num (83143#10000) * Var 0 * (Num (1#4) / (Site 7 * Site 7) + Num (1#1) / (Site 12 * Site 12) - Num (1#4) / (Site 14 * Site 14) + Num (1#4) / (Site 15 * Site 15) - Num (1#4) / (Site 16 * Site 16) + Num (1#4) / (Site 17 * Site 17) - Num (1#8) / (Site 10 * Site 10));
    Num (83143#10000) * Var 0 * (Num (1#8) / (Site 7 * Site 7) + Num (1#2) / (Site 12 * Site 12) - Num (1#8) / (Site 14 * Site 14) - Num (1#8) / (Site 15 * Site 15) + Num (1#8) / (Site 16 * Site 16) + Num (1#8) / (Site 17 * Site 17) + Num (1#16) / (Site 10 * Site 10));
    Num (-83143#10000) * Var 0 * Num (1#8) / (Site 7 * Site 7) + (Num (-13598#5) + (Var 1 - Num (1#1)) * Num (1569#62500)) * Num (2#1)];
    [Num (83143#10000) * Var 0 * (Num (1#4) / (Site 7 * Site 7));
    Num (83143#10000) * Var 0 * (Num (-1#8) / (Site 0 * Site 0) + Num (1#8) / (Site 7 * Site 7) - Num (1#8) / (Site 13 * Site 13) + Num (1#1) / (Site 12 * Site 12) - Num (1#8) / (Site 14 * Site 14) + Num (1#4) / (Site 15 * Site 15) - Num (1#8) / (Site 16 * Site 16) + Num (1#8) / (Site 17 * Site 17));
    Num (83143#10000) * Var 0 * (Num (-1#8) / (Site 0 * Site 0) + Num (1#8) / (Site 7 * Site 7) - Num (1#8) / (Site 13 * Site 13) + Num (1#1) / (Site 12 * Site 12) - Num (1#8) / (Site 14 * Site 14) + Num (1#4) / (Site 15 * Site 15) - Num (1#8) / (Site 16 * Site 16) + Num (1#8) / (Site 17 * Site 17));
    Num (83143#10000) * Var 0 * (Num (1#4) / (Site 7 * Site 7) + Num (1#1) / (Site 12 * Site 12) - Num (1#4) / (Site 14 * Site 14) + Num (1#4) / (Site 15 * Site 15) - Num (1#4) / (Site 16 * Site 16) + Num (1#4) / (Site 17 * Site 17));
    Num (83143#10000) * Var 0 * (Num (1#8) / (Site 7 * Site 7) + Num (1#2) / (Site 12 * Site 12) - Num (1#8) / (Site 14 * Site 14) - Num (1#8) / (Site 15 * Site 15) + Num (1#8) / (Site 16 * Site 16) + Num (1#8) / (Site 17 * Site 17));
    Num (-83143#10000) * Var 0 * Num (1#8) / (Site 7 * Site 7) + (Num (-32949#5) + (Var 1 - Num (1#1)) * Num (27719#500000))];
    [Num (83143#10000) * Var 0 * (Num (1#2) / (Site 7 * Site 7));
    Num (83143#10000) * Var 0 * (Num (1#4) / (Site 7 * Site 7) + Num (1#1) / (Site 12 * Site 12) - Num (1#4) / (Site 14 * Site 14) + Num (1#4) / (Site 15 * Site 15) - Num (1#4) / (Site 16 * Site 16) + Num (1#4) / (Site 17 * Site 17) - Num (1#8) / (Site 10 * Site 10));
    Num (83143#10000) * Var 0 * (Num (1#4) / (Site 7 * Site 7) + Num (1#1) / (Site 12 * Site 12) - Num (1#4) / (Site 14 * Site 14) + Num (1#4) / (Site 15 * Site 15) - Num (1#4) / (Site 16 * Site 16) + Num (1#4) / (Site 17 * Site 17));
    Num (83143#10000) * Var 0 * (Num (1#2) / (Site 7 * Site 7) + Num (1#1) / (Site 12 * Site 12) - Num (1#2) / (Site 14 * Site 14) + Num (1#4) / (Site 15 * Site 15) - Num (1#2) / (Site 16 * Site 16) + Num (1#2) / (Site 17 * Site 17) - Num (1#16) / (Site 10 * Site 10));
    Num (83143#10000) * Var 0 * (Num (1#4) / (Site 7 * Site 7) + Num (1#2) / (Site 12 * Site 12) - Num (1#4) / (Site 14 * Site 14) - Num (1#8) / (Site 15 * Site 15) + Num (1#4) / (Site 16 * Site 16) + Num (1#4) / (Site 17 * Site 17) + Num (1#32) / (Site 10 * Site 10));
    Num (-83143#10000) * Var 0 * Num (1#4) / (Site 7 * Site 7) + (Num (-21443#5) + (Var 1 - Num (1#1)) * Num (22489#500000))];
    [Num (83143#10000) * Var 0 * (Num (1#4) / (Site 7 * Site 7));
    Num (83143#10000) * Var 0 * (Num (1#8) / (Site 7 * Site 7) + Num (1#2) / (Site 12 * Site 12) - Num (1#8) / (Site 14 * Site 14) - Num (1#8) / (Site 15 * Site 15) + Num (1#8) / (Site 16 * Site 16) + Num (1#8) / (Site 17 * Site 17) + Num (1#16) / (Site 10 * Site 10));
    Num (83143#10000) * Var 0 * (Num (1#8) / (Site 7 * Site 7) + Num (1#2) / (Site 12 * Site 12) - Num (1#8) / (Site 14 * Site 14) - Num (1#8) / (Site 15 * Site 15) + Num (1#8) / (Site 16 * Site 16) + Num (1#8) / (Site 17 * Site 17));
    Num (83143#10000) * Var 0 * (Num (1#4) / (Site 7 * Site 7) + Num (1#2) / (Site 12 * Site 12) - Num (1#4) / (Site 14 * Site 14) - Num (1#8) / (Site 15 * Site 15) + Num (1#4) / (Site 16 * Site 16) + Num (1#4) / (Site 17 * Site 17) + Num (1#32) / (Site 10 * Site 10));
    Num (83143#10000) * Var 0 * (Num (1#8) / (Site 7 * Site 7) + Num (1#4) / (Site 12 * Site 12) - Num (1#8) / (Site 14 * Site 14) + Num (1#16) / (Site 15 * Site 15) - Num (1#8) / (Site 16 * Site 16) + Num (1#8) / (Site 17 * Site 17) - Num (1#64) / (Site 10 * Site 10));
    Num (-83143#10000) * Var 0 * Num (1#8) / (Site 7 * Site 7) + (Num (-13598#5) + (Var 1 - Num (1#1)) * Num (1569#62500))];
    [Num (-83143#10000) * Var 0 * Num (1#4) / (Site 7 * Site 7) + (Num (-4184#5) + (Var 1 - Num (1#1)) * Num (3661#125000));
    Num (-83143#10000) * Var 0 * Num (1#8) / (Site 7 * Site 7) + (Num (-13598#5) + (Var 1 - Num (1#1)) * Num (1569#62500)) * Num (2#1);
    Num (-83143#10000) * Var 0 * Num (1#8) / (Site 7 * Site 7) + (Num (-32949#5) + (Var 1 - Num (1#1)) * Num (27719#500000));
    Num (-83143#10000) * Var 0 * Num (1#4) / (Site 7 * Site 7) + (Num (-21443#5) + (Var 1 - Num (1#1)) * Num (22489#500000));
    Num (-83143#10000) * Var 0 * Num (1#8) / (Site 7 * Site 7) + (Num (-13598#5) + (Var 1 - Num (1#1)) * Num (1569#62500));
    Num (83143#10000) * Var 0 * Num (1#8) / (Site 7 * Site 7) + (Num (-42363#10) + (Var 1 - Num (1#1)) * Num (25627#1000000)) * Num (2#1)]];
    [[Num (83143#10000) * Var 0 * (Num (1#2) / (Site 7 * Site 7));
    Num (83143#10000) * Var 0 * (Num (1#4) / (Site 7 * Site 7));
    Num (83143#10000) * Var 0 * (Num (1#4) / (Site 7 * Site 7));
    Num (83143#10000) * Var 0 * (Num (1#2) / (Site 7 * Site 7));
    Num (83143#10000) * Var 0 * (Num (1#4) / (Site 7 * Site 7));
    Num (-83143#10000) * Var 0 * Num (1#4) / (Site 7 * Site 7) + (Num (-4184#5) + (Var 1 - Num (1#1)) * Num (3661#125000))];
    [Num (83143#10000) * Var 0 * (Num (1#4) / (Site 7 * Site 7));
    Num (83143#10000) * Var 0 * (Num (-1#8) / (Site 0 * Site 0) + Num (1#8) / (Site 7 * Site 7) - Num (1#8) / (Site 13 * Site 13) + Num (1#1) / (Site 12 * Site 12) - Num (1#8) / (Site 14 * Site 14) + Num (1#4) / (Site 15 * Site 15) - Num (1#8) / (Site 16 * Site 16) + Num (1#8) / (Site 17 * Site 17));
    Num (83143#10000) * Var 0 * (Num (-1#8) / (Site 0 * Site 0) + Num (1#8) / (Site 7 * Site 7) - Num (1#8) / (Site 13 * Site 13) + Num (1#1) / (Site 12 * Site 12) - Num (1#8) / (Site 14 * Site 14) + Num (1#4) / (Site 15 * Site 15) - Num (1#8) / (Site 16 * Site 16) + Num (1#8) / (Site 17 * Site 17));
    Num (83143#10000) * Var 0 * (Num (1#4) / (Site 7 * Site 7) + Num (1#1) / (Site 12 * Site 12) - Num (1#4) / (Site 14 * Site 14) + Num (1#4) / (Site 15 * Site 15) - Num (1#4) / (Site 16 * Site 16) + Num (1#4) / (Site 17 * Site 17));
    Num (83143#10000) * Var 0 * (Num (1#8) / (Site 7 * Site 7) + Num (1#2) / (Site 12 * Site 12) - Num (1#8) / (Site 14 * Site 14) - Num (1#8) / (Site 15 * Site 15) + Num (1#8) / (Site 16 * Site 16) + Num (1#8) / (Site 17 * Site 17));
    Num (-83143#10000) * Var 0 * Num (1#8) / (Site 7 * Site 7) + (Num (-32949#5) + (Var 1 - Num (1#1)) * Num (27719#500000))];
    [Num (83143#10000) * Var 0 * (Num (1#4) / (Site 7 * Site 7));
    Num (83143#10000) * Var 0 * (Num (-1#8) / (Site 0 * Site 0) + Num (1#8) / (Site 7 * Site 7) - Num (1#8) / (Site 13 * Site 13) + Num (1#1) / (Site 12 * Site 12) - Num (1#8) / (Site 14 * Site 14) + Num (1#4) / (Site 15 * Site 15) - Num (1#8) / (Site 16 * Site 16) + Num (1#8) / (Site 17 * Site 17));
    Num (83143#10000) * Var 0 * (Num (-1#8) / (Site 0 * Site 0) + Num (1#8) / (Site 7 * Site 7) - Num (1#8) / (Site 13 * Site 13) + Num (1#1) / (Site 12 * Site 12) - Num (1#8) / (Site 14 * Site 14) + Num (1#4) / (Site 15 * Site 15) - Num (1#8) / (Site 16 * Site 16) + Num (1#8) / (Site 17 * Site 17) - Num (1#4) / (Site 11 * Site 11));
    Num (83143#10000) * Var 0 * (Num (1#4) / (Site 7 * Site 7) + Num (1#1) / (Site 12 * Site 12) - Num (1#4) / (Site 14 * Site 14) + Num (1#4) / (Site 15 * Site 15) - Num (1#4) / (Site 16 * Site 16) + Num (1#4) / (Site 17 * Site 17) - Num (1#8) / (Site 11 * Site 11));
    Num (83143#10000) * Var 0 * (Num (1#8) / (Site 7 * Site 7) + Num (1#2) / (Site 12 * Site 12) - Num (1#8) / (Site 14 * Site 14) - Num (1#8) / (Site 15 * Site 15) + Num (1#8) / (Site 16 * Site 16) + Num (1#8) / (Site 17 * Site 17) + Num (1#16) / (Site 11 * Site 11));
    Num (-83143#10000) * Var 0 * Num (1#8) / (Site 7 * Site 7) + (Num (-13598#5) + (Var 1 - Num (1#1)) * Num (1569#62500)) * Num (2#1)];
    [Num (83143#10000) * Var 0 * (Num (1#2) / (Site 7 * Site 7));
    Num (83143#10000) * Var 0 * (Num (1#4) / (Site 7 * Site 7) + Num (1#1) / (Site 12 * Site 12) - Num (1#4) / (Site 14 * Site 14) + Num (1#4) / (Site 15 * Site 15) - Num (1#4) / (Site 16 * Site 16) + Num (1#4) / (Site 17 * Site 17));
    Num (83143#10000) * Var 0 * (Num (1#4) / (Site 7 * Site 7) + Num (1#1) / (Site 12 * Site 12) - Num (1#4) / (Site 14 * Site 14) + Num (1#4) / (Site 15 * Site 15) - Num (1#4) / (Site 16 * Site 16) + Num (1#4) / (Site 17 * Site 17) - Num (1#8) / (Site 11 * Site 11));
    Num (83143#10000) * Var 0 * (Num (1#2) / (Site 7 * Site 7) + Num (1#1) / (Site 12 * Site 12) - Num (1#2) / (Site 14 * Site 14) + Num (1#4) / (Site 15 * Site 15) - Num (1#2) / (Site 16 * Site 16) + Num (1#2) / (Site 17 * Site 17) - Num (1#16) / (Site 11 * Site 11));
    Num (83143#10000) * Var 0 * (Num (1#4) / (Site 7 * Site 7) + Num (1#2) / (Site 12 * Site 12) - Num (1#4) / (Site 14 * Site 14) - Num (1#8) / (Site 15 * Site 15) + Num (1#4) / (Site 16 * Site 16) + Num (1#4) / (Site 17 * Site 17) + Num (1#32) / (Site 11 * Site 11));
    Num (-83143#10000) * Var 0 * Num (1#4) / (Site 7 * Site 7) + (Num (-21443#5) + (Var 1 - Num (1#1)) * Num (22489#500000))];
    [Num (83143#10000) * Var 0 * (Num (1#4) / (Site 7 * Site 7));
    Num (83143#10000) * Var 0 * (Num (1#8) / (Site 7 * Site 7) + Num (1#2) / (Site 12 * Site 12) - Num (1#8) / (Site 14 * Site 14) - Num (1#8) / (Site 15 * Site 15) + Num (1#8) / (Site 16 * Site 16) + Num (1#8) / (Site 17 * Site 17));
    Num (83143#10000) * Var 0 * (Num (1#8) / (Site 7 * Site 7) + Num (1#2) / (Site 12 * Site 12) - Num (1#8) / (Site 14 * Site 14) - Num (1#8) / (Site 15 * Site 15) + Num (1#8) / (Site 16 * Site 16) + Num (1#8) / (Site 17 * Site 17) + Num (1#16) / (Site 11 * Site 11));
    Num (83143#10000) * Var 0 * (Num (1#4) / (Site 7 * Site 7) + Num (1#2) / (Site 12 * Site 12) - Num (1#4) / (Site 14 * Site 14) - Num (1#8) / (Site 15 * Site 15) + Num (1#4) / (Site 16 * Site 16) + Num (1#4) / (Site 17 * Site 17) + Num (1#32) / (Site 11 * Site 11));
    Num (83143#10000) * Var 0 * (Num (1#8) / (Site 7 * Site 7) + Num (1#4) / (Site 12 * Site 12) - Num (1#8) / (Site 14 * Site 14) + Num (1#16) / (Site 15 * Site 15) - Num (1#8) / (Site 16 * Site 16) + Num (1#8) / (Site 17 * Site 17) - Num (1#64) / (Site 11 * Site 11));
    Num (-83143#10000) * Var 0 * Num (1#8) / (Site 7 * Site 7) + (Num (-1569#1) + (Var 1 - Num (1#1)) * Num (9937#500000))];
    [Num (-83143#10000) * Var 0 * Num (1#4) / (Site 7 * Site 7) + (Num (-4184#5) + (Var 1 - Num (1#1)) * Num (3661#125000));
    Num (-83143#10000) * Var 0 * Num (1#8) / (Site 7 * Site 7) + (Num (-32949#5) + (Var 1 - Num (1#1)) * Num (27719#500000));
    Num (-83143#10000) * Var 0 * Num (1#8) / (Site 7 * Site 7) + (Num (-13598#5) + (Var 1 - Num (1#1)) * Num (1569#62500)) * Num (2#1);
    Num (-83143#10000) * Var 0 * Num (1#4) / (Site 7 * Site 7) + (Num (-21443#5) + (Var 1 - Num (1#1)) * Num (22489#500000));
    Num (-83143#10000) * Var 0 * Num (1#8) / (Site 7 * Site 7) + (Num (-1569#1) + (Var 1 - Num (1#1)) * Num (9937#500000));
    Num (83143#10000) * Var 0 * Num (1#8) / (Site 7 * Site 7) + (Num (-42363#10) + (Var 1 - Num (1#1)) * Num (25627#1000000)) * Num (2#1)]];
    [[Num (83143#10000) * Var 0 * (Num (1#1) / (Site 7 * Site 7));
    Num (83143#10000) * Var 0 * (Num (1#2) / (Site 7 * Site 7));
    Num (83143#10000) * Var 0 * (Num (1#2) / (Site 7 * Site 7));
    Num (83143#10000) * Var 0 * (Num (1#1) / (Site 7 * Site 7));
    Num (83143#10000) * Var 0 * (Num (1#2) / (Site 7 * Site 7));
    Num (-83143#10000) * Var 0 * Num (1#2) / (Site 7 * Site 7) + (Num (-4184#5) + (Var 1 - Num (1#1)) * Num (3661#125000))];
    [Num (83143#10000) * Var 0 * (Num (1#2) / (Site 7 * Site 7));
    Num (83143#10000) * Var 0 * (Num (1#4) / (Site 7 * Site 7) + Num (1#1) / (Site 12 * Site 12) - Num (1#4) / (Site 14 * Site 14) + Num (1#4) / (Site 15 * Site 15) - Num (1#4) / (Site 16 * Site 16) + Num (1#4) / (Site 17 * Site 17) - Num (1#8) / (Site 10 * Site 10));
    Num (83143#10000) * Var 0 * (Num (1#4) / (Site 7 * Site 7) + Num (1#1) / (Site 12 * Site 12) - Num (1#4) / (Site 14 * Site 14) + Num (1#4) / (Site 15 * Site 15) - Num (1#4) / (Site 16 * Site 16) + Num (1#4) / (Site 17 * Site 17));
    Num (83143#10000) * Var 0 * (Num (1#2) / (Site 7 * Site 7) + Num (1#1) / (Site 12 * Site 12) - Num (1#2) / (Site 14 * Site 14) + Num (1#4) / (Site 15 * Site 15) - Num (1#2) / (Site 16 * Site 16) + Num (1#2) / (Site 17 * Site 17) - Num (1#16) / (Site 10 * Site 10));
    Num (83143#10000) * Var 0 * (Num (1#4) / (Site 7 * Site 7) + Num (1#2) / (Site 12 * Site 12) - Num (1#4) / (Site 14 * Site 14) - Num (1#8) / (Site 15 * Site 15) + Num (1#4) / (Site 16 * Site 16) + Num (1#4) / (Site 17 * Site 17) + Num (1#32) / (Site 10 * Site 10));
    Num (-83143#10000) * Var 0 * Num (1#4) / (Site 7 * Site 7) + (Num (-21443#5) + (Var 1 - Num (1#1)) * Num (22489#500000))];
    [Num (83143#10000) * Var 0 * (Num (1#2) / (Site 7 * Site 7));
    Num (83143#10000) * Var 0 * (Num (1#4) / (Site 7 * Site 7) + Num (1#1) / (Site 12 * Site 12) - Num (1#4) / (Site 14 * Site 14) + Num (1#4) / (Site 15 * Site 15) - Num (1#4) / (Site 16 * Site 16) + Num (1#4) / (Site 17 * Site 17));
    Num (83143#10000) * Var 0 * (Num (1#4) / (Site 7 * Site 7) + Num (1#1) / (Site 12 * Site 12) - Num (1#4) / (Site 14 * Site 14) + Num (1#4) / (Site 15 * Site 15) - Num (1#4) / (Site 16 * Site 16) + Num (1#4) / (Site 17 * Site 17) - Num (1#8) / (Site 11 * Site 11));
    Num (83143#10000) * Var 0 * (Num (1#2) / (Site 7 * Site 7) + Num (1#1) / (Site 12 * Site 12) - Num (1#2) / (Site 14 * Site 14) + Num (1#4) / (Site 15 * Site 15) - Num (1#2) / (Site 16 * Site 16) + Num (1#2) / (Site 17 * Site 17) - Num (1#16) / (Site 11 * Site 11));
    Num (83143#10000) * Var 0 * (Num (1#4) / (Site 7 * Site 7) + Num (1#2) / (Site 12 * Site 12) - Num (1#4) / (Site 14 * Site 14) - Num (1#8) / (Site 15 * Site 15) + Num (1#4) / (Site 16 * Site 16) + Num (1#4) / (Site 17 * Site 17) + Num (1#32) / (Site 11 * Site 11));
    Num (-83143#10000) * Var 0 * Num (1#4) / (Site 7 * Site 7) + (Num (-21443#5) + (Var 1 - Num (1#1)) * Num (22489#500000))];
    [Num (83143#10000) * Var 0 * (Num (1#1) / (Site 7 * Site 7));
    Num (83143#10000) * Var 0 * (Num (1#2) / (Site 7 * Site 7) + Num (1#1) / (Site 12 * Site 12) - Num (1#2) / (Site 14 * Site 14) + Num (1#4) / (Site 15 * Site 15) - Num (1#2) / (Site 16 * Site 16) + Num (1#2) / (Site 17 * Site 17) - Num (1#16) / (Site 10 * Site 10));
    Num (83143#10000) * Var 0 * (Num (1#2) / (Site 7 * Site 7) + Num (1#1) / (Site 12 * Site 12) - Num (1#2) / (Site 14 * Site 14) + Num (1#4) / (Site 15 * Site 15) - Num (1#2) / (Site 16 * Site 16) + Num (1#2) / (Site 17 * Site 17) - Num (1#16) / (Site 11 * Site 11));
    Num (83143#10000) * Var 0 * (Num (-1#8) / (Site 4 * Site 4) - Num (1#8) / (Site 6 * Site 6) + Num (1#1) / (Site 7 * Site 7) + Num (1#1) / (Site 12 * Site 12) - Num (1#1) / (Site 14 * Site 14) + Num (1#4) / (Site 15 * Site 15) - Num (1#32) / (Site 10 * Site 10) - Num (1#32) / (Site 11 * Site 11) - Num (1#1) / (Site 16 * Site 16) + Num (1#1) / (Site 17 * Site 17));
    Num (83143#10000) * Var 0 * (Num (-1#16) / (Site 4 * Site 4) - Num (1#16) / (Site 6 * Site 6) + Num (1#2) / (Site 7 * Site 7) + Num (1#2) / (Site 12 * Site 12) - Num (1#2) / (Site 14 * Site 14) - Num (1#8) / (Site 15 * Site 15) + Num (1#64) / (Site 10 * Site 10) + Num (1#64) / (Site 11 * Site 11) + Num (1#2) / (Site 16 * Site 16) + Num (1#2) / (Site 17 * Site 17));
    Num (-83143#10000) * Var 0 * Num (1#2) / (Site 7 * Site 7) + (Num (-2092#5) + (Var 1 - Num (1#1)) * Num (3661#250000)) * Num (2#1)];
    [Num (83143#10000) * Var 0 * (Num (1#2) / (Site 7 * Site 7));
    Num (83143#10000) * Var 0 * (Num (1#4) / (Site 7 * Site 7) + Num (1#2) / (Site 12 * Site 12) - Num (1#4) / (Site 14 * Site 14) - Num (1#8) / (Site 15 * Site 15) + Num (1#4) / (Site 16 * Site 16) + Num (1#4) / (Site 17 * Site 17) + Num (1#32) / (Site 10 * Site 10));
    Num (83143#10000) * Var 0 * (Num (1#4) / (Site 7 * Site 7) + Num (1#2) / (Site 12 * Site 12) - Num (1#4) / (Site 14 * Site 14) - Num (1#8) / (Site 15 * Site 15) + Num (1#4) / (Site 16 * Site 16) + Num (1#4) / (Site 17 * Site 17) + Num (1#32) / (Site 11 * Site 11));
    Num (83143#10000) * Var 0 * (Num (-1#16) / (Site 4 * Site 4) - Num (1#16) / (Site 6 * Site 6) + Num (1#2) / (Site 7 * Site 7) + Num (1#2) / (Site 12 * Site 12) - Num (1#2) / (Site 14 * Site 14) - Num (1#8) / (Site 15 * Site 15) + Num (1#64) / (Site 10 * Site 10) + Num (1#64) / (Site 11 * Site 11) + Num (1#2) / (Site 16 * Site 16) + Num (1#2) / (Site 17 * Site 17));
    Num (83143#10000) * Var 0 * (Num (-1#32) / (Site 4 * Site 4) - Num (1#32) / (Site 6 * Site 6) + Num (1#4) / (Site 7 * Site 7) + Num (1#4) / (Site 12 * Site 12) - Num (1#4) / (Site 14 * Site 14) + Num (1#16) / (Site 15 * Site 15) - Num (1#128) / (Site 10 * Site 10) - Num (1#128) / (Site 11 * Site 11) - Num (1#4) / (Site 16 * Site 16) + Num (1#4) / (Site 17 * Site 17));
    Num (-83143#10000) * Var 0 * Num (1#4) / (Site 7 * Site 7) + (Num (-2092#5) + (Var 1 - Num (1#1)) * Num (3661#250000))];
    [Num (-83143#10000) * Var 0 * Num (1#2) / (Site 7 * Site 7) + (Num (-4184#5) + (Var 1 - Num (1#1)) * Num (3661#125000));
    Num (-83143#10000) * Var 0 * Num (1#4) / (Site 7 * Site 7) + (Num (-21443#5) + (Var 1 - Num (1#1)) * Num (22489#500000));
    Num (-83143#10000) * Var 0 * Num (1#4) / (Site 7 * Site 7) + (Num (-21443#5) + (Var 1 - Num (1#1)) * Num (22489#500000));
    Num (-83143#10000) * Var 0 * Num (1#2) / (Site 7 * Site 7) + (Num (-2092#5) + (Var 1 - Num (1#1)) * Num (3661#250000)) * Num (2#1);
    Num (-83143#10000) * Var 0 * Num (1#4) / (Site 7 * Site 7) + (Num (-2092#5) + (Var 1 - Num (1#1)) * Num (3661#250000));
    Num (83143#10000) * Var 0 * Num (1#4) / (Site 7 * Site 7) + (Num (-1046#5) + (Var 1 - Num (1#1)) * Num (3661#500000)) * Num (2#1)]];
    [[Num (83143#10000) * Var 0 * (Num (1#2) / (Site 7 * Site 7));
    Num (83143#10000) * Var 0 * (Num (1#4) / (Site 7 * Site 7));
    Num (83143#10000) * Var 0 * (Num (1#4) / (Site 7 * Site 7));
    Num (83143#10000) * Var 0 * (Num (1#2) / (Site 7 * Site 7));
    Num (83143#10000) * Var 0 * (Num (1#4) / (Site 7 * Site 7));
    Num (-83143#10000) * Var 0 * Num (1#4) / (Site 7 * Site 7) + (Num (-2092#5) + (Var 1 - Num (1#1)) * Num (3661#250000))];
    [Num (83143#10000) * Var 0 * (Num (1#4) / (Site 7 * Site 7));
    Num (83143#10000) * Var 0 * (Num (1#8) / (Site 7 * Site 7) + Num (1#2) / (Site 12 * Site 12) - Num (1#8) / (Site 14 * Site 14) - Num (1#8) / (Site 15 * Site 15) + Num (1#8) / (Site 16 * Site 16) + Num (1#8) / (Site 17 * Site 17) + Num (1#16) / (Site 10 * Site 10));
    Num (83143#10000) * Var 0 * (Num (1#8) / (Site 7 * Site 7) + Num (1#2) / (Site 12 * Site 12) - Num (1#8) / (Site 14 * Site 14) - Num (1#8) / (Site 15 * Site 15) + Num (1#8) / (Site 16 * Site 16) + Num (1#8) / (Site 17 * Site 17));
    Num (83143#10000) * Var 0 * (Num (1#4) / (Site 7 * Site 7) + Num (1#2) / (Site 12 * Site 12) - Num (1#4) / (Site 14 * Site 14) - Num (1#8) / (Site 15 * Site 15) + Num (1#4) / (Site 16 * Site 16) + Num (1#4) / (Site 17 * Site 17) + Num (1#32) / (Site 10 * Site 10));
    Num (83143#10000) * Var 0 * (Num (1#8) / (Site 7 * Site 7) + Num (1#4) / (Site 12 * Site 12) - Num (1#8) / (Site 14 * Site 14) + Num (1#16) / (Site 15 * Site 15) - Num (1#8) / (Site 16 * Site 16) + Num (1#8) / (Site 17 * Site 17) - Num (1#64) / (Site 10 * Site 10));
    Num (-83143#10000) * Var 0 * Num (1#8) / (Site 7 * Site 7) + (Num (-13598#5) + (Var 1 - Num (1#1)) * Num (1569#62500))];
    [Num (83143#10000) * Var 0 * (Num (1#4) / (Site 7 * Site 7));
    Num (83143#10000) * Var 0 * (Num (1#8) / (Site 7 * Site 7) + Num (1#2) / (Site 12 * Site 12) - Num (1#8) / (Site 14 * Site 14) - Num (1#8) / (Site 15 * Site 15) + Num (1#8) / (Site 16 * Site 16) + Num (1#8) / (Site 17 * Site 17));
    Num (83143#10000) * Var 0 * (Num (1#8) / (Site 7 * Site 7) + Num (1#2) / (Site 12 * Site 12) - Num (1#8) / (Site 14 * Site 14) - Num (1#8) / (Site 15 * Site 15) + Num (1#8) / (Site 16 * Site 16) + Num (1#8) / (Site 17 * Site 17) + Num (1#16) / (Site 11 * Site 11));
    Num (83143#10000) * Var 0 * (Num (1#4) / (Site 7 * Site 7) + Num (1#2) / (Site 12 * Site 12) - Num (1#4) / (Site 14 * Site 14) - Num (1#8) / (Site 15 * Site 15) + Num (1#4) / (Site 16 * Site 16) + Num (1#4) / (Site 17 * Site 17) + Num (1#32) / (Site 11 * Site 11));
    Num (83143#10000) * Var 0 * (Num (1#8) / (Site 7 * Site 7) + Num (1#4) / (Site 12 * Site 12) - Num (1#8) / (Site 14 * Site 14) + Num (1#16) / (Site 15 * Site 15) - Num (1#8) / (Site 16 * Site 16) + Num (1#8) / (Site 17 * Site 17) - Num (1#64) / (Site 11 * Site 11));
    Num (-83143#10000) * Var 0 * Num (1#8) / (Site 7 * Site 7) + (Num (-1569#1) + (Var 1 - Num (1#1)) * Num (9937#500000))];
    [Num (83143#10000) * Var 0 * (Num (1#2) / (Site 7 * Site 7));
    Num (83143#10000) * Var 0 * (Num (1#4) / (Site 7 * Site 7) + Num (1#2) / (Site 12 * Site 12) - Num (1#4) / (Site 14 * Site 14) - Num (1#8) / (Site 15 * Site 15) + Num (1#4) / (Site 16 * Site 16) + Num (1#4) / (Site 17 * Site 17) + Num (1#32) / (Site 10 * Site 10));
    Num (83143#10000) * Var 0 * (Num (1#4) / (Site 7 * Site 7) + Num (1#2) / (Site 12 * Site 12) - Num (1#4) / (Site 14 * Site 14) - Num (1#8) / (Site 15 * Site 15) + Num (1#4) / (Site 16 * Site 16) + Num (1#4) / (Site 17 * Site 17) + Num (1#32) / (Site 11 * Site 11));
    Num (83143#10000) * Var 0 * (Num (-1#16) / (Site 4 * Site 4) - Num (1#16) / (Site 6 * Site 6) + Num (1#2) / (Site 7 * Site 7) + Num (1#2) / (Site 12 * Site 12) - Num (1#2) / (Site 14 * Site 14) - Num (1#8) / (Site 15 * Site 15) + Num (1#64) / (Site 10 * Site 10) + Num (1#64) / (Site 11 * Site 11) + Num (1#2) / (Site 16 * Site 16) + Num (1#2) / (Site 17 * Site 17));
    Num (83143#10000) * Var 0 * (Num (-1#32) / (Site 4 * Site 4) - Num (1#32) / (Site 6 * Site 6) + Num (1#4) / (Site 7 * Site 7) + Num (1#4) / (Site 12 * Site 12) - Num (1#4) / (Site 14 * Site 14) + Num (1#16) / (Site 15 * Site 15) - Num (1#128) / (Site 10 * Site 10) - Num (1#128) / (Site 11 * Site 11) - Num (1#4) / (Site 16 * Site 16) + Num (1#4) / (Site 17 * Site 17));
    Num (-83143#10000) * Var 0 * Num (1#4) / (Site 7 * Site 7) + (Num (-2092#5) + (Var 1 - Num (1#1)) * Num (3661#250000))];
    [Num (83143#10000) * Var 0 * (Num (1#4) / (Site 7 * Site 7));
    Num (83143#10000) * Var 0 * (Num (1#8) / (Site 7 * Site 7) + Num (1#4) / (Site 12 * Site 12) - Num (1#8) / (Site 14 * Site 14) + Num (1#16) / (Site 15 * Site 15) - Num (1#8) / (Site 16 * Site 16) + Num (1#8) / (Site 17 * Site 17) - Num (1#64) / (Site 10 * Site 10));
    Num (83143#10000) * Var 0 * (Num (1#8) / (Site 7 * Site 7) + Num (1#4) / (Site 12 * Site 12) - Num (1#8) / (Site 14 * Site 14) + Num (1#16) / (Site 15 * Site 15) - Num (1#8) / (Site 16 * Site 16) + Num (1#8) / (Site 17 * Site 17) - Num (1#64) / (Site 11 * Site 11));
    Num (83143#10000) * Var 0 * (Num (-1#32) / (Site 4 * Site 4) - Num (1#32) / (Site 6 * Site 6) + Num (1#4) / (Site 7 * Site 7) + Num (1#4) / (Site 12 * Site 12) - Num (1#4) / (Site 14 * Site 14) + Num (1#16) / (Site 15 * Site 15) - Num (1#128) / (Site 10 * Site 10) - Num (1#128) / (Site 11 * Site 11) - Num (1#4) / (Site 16 * Site 16) + Num (1#4) / (Site 17 * Site 17));
    Num (83143#10000) * Var 0 * (Num (-1#64) / (Site 4 * Site 4) - Num (1#64) / (Site 6 * Site 6) + Num (1#8) / (Site 7 * Site 7) + Num (1#8) / (Site 12 * Site 12) - Num (1#8) / (Site 14 * Site 14) - Num (1#32) / (Site 15 * Site 15) + Num (1#256) / (Site 10 * Site 10) + Num (1#256) / (Site 11 * Site 11) + Num (1#1) / (Site 1 * Site 1) - Num (1#1) / (Site 2 * Site 2) + Num (1#8) / (Site 16 * Site 16) + Num (1#8) / (Site 17 * Site 17) - Num (1#1) / (Site 18 * Site 18));
    Num (83143#10000) * Var 0 * (Num (-1#8) / (Site 7 * Site 7) + Num (1#1) / (Site 1 * Site 1)) + Num (2#1) * (Num (3661#20) + (Var 1 - Num (1#1)) * Num (4707#2000000))];
    [Num (-83143#10000) * Var 0 * Num (1#4) / (Site 7 * Site 7) + (Num (-2092#5) + (Var 1 - Num (1#1)) * Num (3661#250000));
    Num (-83143#10000) * Var 0 * Num (1#8) / (Site 7 * Site 7) + (Num (-13598#5) + (Var 1 - Num (1#1)) * Num (1569#62500));
    Num (-83143#10000) * Var 0 * Num (1#8) / (Site 7 * Site 7) + (Num (-1569#1) + (Var 1 - Num (1#1)) * Num (9937#500000));
    Num (-83143#10000) * Var 0 * Num (1#4) / (Site 7 * Site 7) + (Num (-2092#5) + (Var 1 - Num (1#1)) * Num (3661#250000));
    Num (83143#10000) * Var 0 * (Num (-1#8) / (Site 7 * Site 7) + Num (1#1) / (Site 1 * Site 1)) + Num (2#1) * (Num (3661#20) + (Var 1 - Num (1#1)) * Num (4707#2000000));
    Num (83143#10000) * Var 0 * (Num (1#8) / (Site 7 * Site 7) + Num (1#1) / (Site 1 * Site 1)) + Num (2#1) * (Num (-523#5) + (Var 1 - Num (1#1)) * Num (3661#1000000))]];
    [[Num (83143#10000) * Var 0 * (Num (1#2) / (Site 5 * Site 5) - Num (1#2) / (Site 7 * Site 7)) + Num (2#1) * (Num (2092#5) + (Var 1 - Num (1#1)) * Num (-3661#250000));
    Num (-83143#10000) * Var 0 * Num (1#4) / (Site 7 * Site 7) + (Num (-4184#5) + (Var 1 - Num (1#1)) * Num (3661#125000));
    Num (-83143#10000) * Var 0 * Num (1#4) / (Site 7 * Site 7) + (Num (-4184#5) + (Var 1 - Num (1#1)) * Num (3661#125000));
    Num (-83143#10000) * Var 0 * Num (1#2) / (Site 7 * Site 7) + (Num (-4184#5) + (Var 1 - Num (1#1)) * Num (3661#125000));
    Num (-83143#10000) * Var 0 * Num (1#4) / (Site 7 * Site 7) + (Num (-2092#5) + (Var 1 - Num (1#1)) * Num (3661#250000));
    Num (83143#10000) * Var 0 * (Num (-1#4) / (Site 5 * Site 5) + Num (1#4) / (Site 7 * Site 7)) + Num (2#1) * (Num (-11506#5) + (Var 1 - Num (1#1)) * Num (40271#500000))];
    [Num (-83143#10000) * Var 0 * Num (1#4) / (Site 7 * Site 7) + (Num (-4184#5) + (Var 1 - Num (1#1)) * Num (3661#125000));
    Num (-83143#10000) * Var 0 * Num (1#8) / (Site 7 * Site 7) + (Num (-13598#5) + (Var 1 - Num (1#1)) * Num (1569#62500)) * Num (2#1);
    Num (-83143#10000) * Var 0 * Num (1#8) / (Site 7 * Site 7) + (Num (-32949#5) + (Var 1 - Num (1#1)) * Num (27719#500000));
    Num (-83143#10000) * Var 0 * Num (1#4) / (Site 7 * Site 7) + (Num (-21443#5) + (Var 1 - Num (1#1)) * Num (22489#500000));
    Num (-83143#10000) * Var 0 * Num (1#8) / (Site 7 * Site 7) + (Num (-13598#5) + (Var 1 - Num (1#1)) * Num (1569#62500));
    Num (83143#10000) * Var 0 * Num (1#8) / (Site 7 * Site 7) + (Num (-42363#10) + (Var 1 - Num (1#1)) * Num (25627#1000000)) * Num (2#1)];
    [Num (-83143#10000) * Var 0 * Num (1#4) / (Site 7 * Site 7) + (Num (-4184#5) + (Var 1 - Num (1#1)) * Num (3661#125000));
    Num (-83143#10000) * Var 0 * Num (1#8) / (Site 7 * Site 7) + (Num (-32949#5) + (Var 1 - Num (1#1)) * Num (27719#500000));
    Num (-83143#10000) * Var 0 * Num (1#8) / (Site 7 * Site 7) + (Num (-13598#5) + (Var 1 - Num (1#1)) * Num (1569#62500)) * Num (2#1);
    Num (-83143#10000) * Var 0 * Num (1#4) / (Site 7 * Site 7) + (Num (-21443#5) + (Var 1 - Num (1#1)) * Num (22489#500000));
    Num (-83143#10000) * Var 0 * Num (1#8) / (Site 7 * Site 7) + (Num (-1569#1) + (Var 1 - Num (1#1)) * Num (9937#500000));
    Num (83143#10000) * Var 0 * Num (1#8) / (Site 7 * Site 7) + (Num (-42363#10) + (Var 1 - Num (1#1)) * Num (25627#1000000)) * Num (2#1)];
    [Num (-83143#10000) * Var 0 * Num (1#2) / (Site 7 * Site 7) + (Num (-4184#5) + (Var 1 - Num (1#1)) * Num (3661#125000));
    Num (-83143#10000) * Var 0 * Num (1#4) / (Site 7 * Site 7) + (Num (-21443#5) + (Var 1 - Num (1#1)) * Num (22489#500000));
    Num (-83143#10000) * Var 0 * Num (1#4) / (Site 7 * Site 7) + (Num (-21443#5) + (Var 1 - Num (1#1)) * Num (22489#500000));
    Num (-83143#10000) * Var 0 * Num (1#2) / (Site 7 * Site 7) + (Num (-2092#5) + (Var 1 - Num (1#1)) * Num (3661#250000)) * Num (2#1);
    Num (-83143#10000) * Var 0 * Num (1#4) / (Site 7 * Site 7) + (Num (-2092#5) + (Var 1 - Num (1#1)) * Num (3661#250000));
    Num (83143#10000) * Var 0 * Num (1#4) / (Site 7 * Site 7) + (Num (-1046#5) + (Var 1 - Num (1#1)) * Num (3661#500000)) * Num (2#1)];
    [Num (-83143#10000) * Var 0 * Num (1#4) / (Site 7 * Site 7) + (Num (-2092#5) + (Var 1 - Num (1#1)) * Num (3661#250000));
    Num (-83143#10000) * Var 0 * Num (1#8) / (Site 7 * Site 7) + (Num (-13598#5) + (Var 1 - Num (1#1)) * Num (1569#62500));
    Num (-83143#10000) * Var 0 * Num (1#8) / (Site 7 * Site 7) + (Num (-1569#1) + (Var 1 - Num (1#1)) * Num (9937#500000));
    Num (-83143#10000) * Var 0 * Num (1#4) / (Site 7 * Site 7) + (Num (-2092#5) + (Var 1 - Num (1#1)) * Num (3661#250000));
    Num (83143#10000) * Var 0 * (Num (-1#8) / (Site 7 * Site 7) + Num (1#1) / (Site 1 * Site 1)) + Num (2#1) * (Num (3661#20) + (Var 1 - Num (1#1)) * Num (4707#2000000));
    Num (83143#10000) * Var 0 * (Num (1#8) / (Site 7 * Site 7) + Num (1#1) / (Site 1 * Site 1)) + Num (2#1) * (Num (-523#5) + (Var 1 - Num (1#1)) * Num (3661#1000000))];
    [Num (83143#10000) * Var 0 * (Num (-1#4) / (Site 5 * Site 5) + Num (1#4) / (Site 7 * Site 7)) + Num (2#1) * (Num (-11506#5) + (Var 1 - Num (1#1)) * Num (40271#500000));
    Num (83143#10000) * Var 0 * Num (1#8) / (Site 7 * Site 7) + (Num (-42363#10) + (Var 1 - Num (1#1)) * Num (25627#1000000)) * Num (2#1);
    Num (83143#10000) * Var 0 * Num (1#8) / (Site 7 * Site 7) + (Num (-42363#10) + (Var 1 - Num (1#1)) * Num (25627#1000000)) * Num (2#1);
    Num (83143#10000) * Var 0 * Num (1#4) / (Site 7 * Site 7) + (Num (-1046#5) + (Var 1 - Num (1#1)) * Num (3661#500000)) * Num (2#1);
    Num (83143#10000) * Var 0 * (Num (1#8) / (Site 7 * Site 7) + Num (1#1) / (Site 1 * Site 1)) + Num (2#1) * (Num (-523#5) + (Var 1 - Num (1#1)) * Num (3661#1000000));
    Num (83143#10000) * Var 0 * (Num (-1#8) / (Site 7 * Site 7) + Num (1#8) / (Site 5 * Site 5) + Num (1#1) / (Site 1 * Site 1) - Num (1#8) / (Site 9 * Site 9) - Num (1#8) / (Site 8 * Site 8)) + Num (6#1) * (Num (6276#5) + (Var 1 - Num (1#1)) * Num (-10983#250000))]]].
(** sources/orthopyroxene.c 3241: macro fillD3GDR2DS *)
Definition oOpx_d3gdr2ds :=
  [[[Num (0#1);
    Num (-83143#10000) * Var 0 * (Num (-1#2) / (Site 5 * Site 5) + Num (1#2) / (Site 7 * Site 7)) + (Num (-2092#5) + (Var 1 - Num (1#1)) * Num (3661#250000)) * Num (2#1)];
    [Num (0#1);
    Num (-83143#10000) * Var 0 * Num (1#4) / (Site 7 * Site 7) + (Num (50208#5) + (Var 1 - Num (1#1)) * Num (-8891#125000))];
    [Num (0#1);
    Num (-83143#10000) * Var 0 * Num (1#4) / (Site 7 * Site 7) + (Num (50208#5) + (Var 1 - Num (1#1)) * Num (-8891#125000))];
    [Num (0#1);
    Num (-83143#10000) * Var 0 * Num (1#2) / (Site 7 * Site 7) + (Num (50208#5) + (Var 1 - Num (1#1)) * Num (-8891#125000))];
    [Num (0#1);
    Num (-83143#10000) * Var 0 * Num (1#4) / (Site 7 * Site 7) + (Num (25104#5) + (Var 1 - Num (1#1)) * Num (-8891#250000))];
    [Num (0#1);
    Num (-83143#10000) * Var 0 * (Num (1#4) / (Site 5 * Site 5) - Num (1#4) / (Site 7 * Site 7)) + (Num (102508#5) + (Var 1 - Num (1#1)) * Num (-1569#10000))]];
    [[Num (0#1);
    Num (-83143#10000) * Var 0 * Num (1#4) / (Site 7 * Site 7) + (Num (50208#5) + (Var 1 - Num (1#1)) * Num (-8891#125000))];
    [Num (-83143#10000) * Var 0 * Num (1#8) / (Site 10 * Site 10);
    Num (-83143#10000) * Var 0 * Num (1#8) / (Site 7 * Site 7) + (Num (13598#5) + (Var 1 - Num (1#1)) * Num (-1569#62500)) * Num (2#1)];
    [Num (0#1);
    Num (-83143#10000) * Var 0 * Num (1#8) / (Site 7 * Site 7) + (Num (21443#5) + (Var 1 - Num (1#1)) * Num (-22489#500000))];
    [Num (-83143#10000) * Var 0 * Num (1#16) / (Site 10 * Site 10);
    Num (-83143#10000) * Var 0 * Num (1#4) / (Site 7 * Site 7) + (Num (32949#5) + (Var 1 - Num (1#1)) * Num (-27719#500000))];
    [Num (83143#10000) * Var 0 * Num (1#32) / (Site 10 * Site 10);
    Num (-83143#10000) * Var 0 * Num (1#8) / (Site 7 * Site 7) + (Num (13598#5) + (Var 1 - Num (1#1)) * Num (-1569#62500))];
    [Num (0#1);
    Num (83143#10000) * Var 0 * Num (1#8) / (Site 7 * Site 7) + (Num (6276#5) + (Var 1 - Num (1#1)) * Num (-10983#250000))]];
    [[Num (0#1);
    Num (-83143#10000) * Var 0 * Num (1#4) / (Site 7 * Site 7) + (Num (50208#5) + (Var 1 - Num (1#1)) * Num (-8891#125000))];
    [Num (0#1);
    Num (-83143#10000) * Var 0 * Num (1#8) / (Site 7 * Site 7) + (Num (21443#5) + (Var 1 - Num (1#1)) * Num (-22489#500000))];
    [Num (83143#10000) * Var 0 * Num (1#8) / (Site 11 * Site 11);
    Num (-83143#10000) * Var 0 * Num (1#8) / (Site 7 * Site 7) + (Num (13598#5) + (Var 1 - Num (1#1)) * Num (-1569#62500)) * Num (2#1)];
    [Num (83143#10000) * Var 0 * Num (1#16) / (Site 11 * Site 11);
    Num (-83143#10000) * Var 0 * Num (1#4) / (Site 7 * Site 7) + (Num (32949#5) + (Var 1 - Num (1#1)) * Num (-27719#500000))];
    [Num (-83143#10000) * Var 0 * Num (1#32) / (Site 11 * Site 11);
    Num (-83143#10000) * Var 0 * Num (1#8) / (Site 7 * Site 7) + (Num (19351#5) + (Var 1 - Num (1#1)) * Num (-15167#500000))];
    [Num (0#1);
    Num (83143#10000) * Var 0 * Num (1#8) / (Site 7 * Site 7) + (Num (6276#5) + (Var 1 - Num (1#1)) * Num (-10983#250000))]];
    [[Num (0#1);
    Num (-83143#10000) * Var 0 * Num (1#2) / (Site 7 * Site 7) + (Num (50208#5) + (Var 1 - Num (1#1)) * Num (-8891#125000))];
    [Num (-83143#10000) * Var 0 * Num (1#16) / (Site 10 * Site 10);
    Num (-83143#10000) * Var 0 * Num (1#4) / (Site 7 * Site 7) + (Num (32949#5) + (Var 1 - Num (1#1)) * Num (-27719#500000))];
    [Num (83143#10000) * Var 0 * Num (1#16) / (Site 11 * Site 11);
    Num (-83143#10000) * Var 0 * Num (1#4) / (Site 7 * Site 7) + (Num (32949#5) + (Var 1 - Num (1#1)) * Num (-27719#500000))];
    [Num (-83143#10000) * Var 0 * (Num (-1#8) / (Site 4 * Site 4) + Num (1#8) / (Site 6 * Site 6) + Num (1#32) / (Site 10 * Site 10) - Num (1#32) / (Site 11 * Site 11));
    Num (-83143#10000) * Var 0 * Num (1#2) / (Site 7 * Site 7) + (Num (25104#5) + (Var 1 - Num (1#1)) * Num (-8891#250000)) * Num (2#1)];
    [Num (-83143#10000) * Var 0 * (Num (-1#16) / (Site 4 * Site 4) + Num (1#16) / (Site 6 * Site 6) - Num (1#64) / (Site 10 * Site 10) + Num (1#64) / (Site 11 * Site 11));
    Num (-83143#10000) * Var 0 * Num (1#4) / (Site 7 * Site 7) + (Num (25104#5) + (Var 1 - Num (1#1)) * Num (-8891#250000))];
    [Num (0#1);
    Num (83143#10000) * Var 0 * Num (1#4) / (Site 7 * Site 7) + (Num (29288#5) + (Var 1 - Num (1#1)) * Num (-16213#250000))]];
    [[Num (0#1);
    Num (-83143#10000) * Var 0 * Num (1#4) / (Site 7 * Site 7) + (Num (25104#5) + (Var 1 - Num (1#1)) * Num (-8891#250000))];
    [Num (83143#10000) * Var 0 * Num (1#32) / (Site 10 * Site 10);
    Num (-83143#10000) * Var 0 * Num (1#8) / (Site 7 * Site 7) + (Num (13598#5) + (Var 1 - Num (1#1)) * Num (-1569#62500))];
    [Num (-83143#10000) * Var 0 * Num (1#32) / (Site 11 * Site 11);
    Num (-83143#10000) * Var 0 * Num (1#8) / (Site 7 * Site 7) + (Num (19351#5) + (Var 1 - Num (1#1)) * Num (-15167#500000))];
    [Num (-83143#10000) * Var 0 * (Num (-1#16) / (Site 4 * Site 4) + Num (1#16) / (Site 6 * Site 6) - Num (1#64) / (Site 10 * Site 10) + Num (1#64) / (Site 11 * Site 11));
    Num (-83143#10000) * Var 0 * Num (1#4) / (Site 7 * Site 7) + (Num (25104#5) + (Var 1 - Num (1#1)) * Num (-8891#250000))];
    [Num (-83143#10000) * Var 0 * (Num (-1#32) / (Site 4 * Site 4) + Num (1#32) / (Site 6 * Site 6) + Num (1#128) / (Site 10 * Site 10) - Num (1#128) / (Site 11 * Site 11));
    Num (-83143#10000) * Var 0 * Num (1#8) / (Site 7 * Site 7) + (Num (30857#20) + (Var 1 - Num (1#1)) * Num (-20397#2000000)) * Num (2#1)];
    [Num (0#1);
    Num (83143#10000) * Var 0 * Num (1#8) / (Site 7 * Site 7) + (Num (14644#5) + (Var 1 - Num (1#1)) * Num (-16213#500000))]];
    [[Num (0#1);
    Num (-83143#10000) * Var 0 * (Num (1#4) / (Site 5 * Site 5) - Num (1#4) / (Site 7 * Site 7)) + (Num (102508#5) + (Var 1 - Num (1#1)) * Num (-1569#10000))];
    [Num (0#1);
    Num (83143#10000) * Var 0 * Num (1#8) / (Site 7 * Site 7) + (Num (6276#5) + (Var 1 - Num (1#1)) * Num (-10983#250000))];
    [Num (0#1);
    Num (83143#10000) * Var 0 * Num (1#8) / (Site 7 * Site 7) + (Num (6276#5) + (Var 1 - Num (1#1)) * Num (-10983#250000))];
    [Num (0#1);
    Num (83143#10000) * Var 0 * Num (1#4) / (Site 7 * Site 7) + (Num (29288#5) + (Var 1 - Num (1#1)) * Num (-16213#250000))];
    [Num (0#1);
    Num (83143#10000) * Var 0 * Num (1#8) / (Site 7 * Site 7) + (Num (14644#5) + (Var 1 - Num (1#1)) * Num (-16213#500000))];
    [Num (0#1);
    Num (-83143#10000) * Var 0 * (Num (1#8) / (Site 7 * Site 7) - Num (1#8) / (Site 5 * Site 5) - Num (1#8) / (Site 9 * Site 9) + Num (1#8) / (Site 8 * Site 8)) + (Num (-8368#1) + (Var 1 - Num (1#1)) * Num (1569#125000)) * Num (2#1)]]].
(** sources/orthopyroxene.c 3279: macro fillD3GDR2DT *)
Definition oOpx_d3gdr2dt :=
  [[Num (83143#10000) * (Num (1#1) / Site 5 + Num (1#1) / Site 7);
    Num (83143#10000) * (Num (1#2) / Site 7);
    Num (83143#10000) * (Num (1#2) / Site 7);
    Num (83143#10000) * (Num (1#1) / Site 7);
    Num (83143#10000) * (Num (1#2) / Site 7);
    Num (-83143#10000) * (Num (1#2) / Site 5 + Num (1#2) / Site 7) - Num (-7247211#6250000)];
    [Num (83143#10000) * (Num (1#2) / Site 7);
    Num (83143#10000) * (Num (1#4) / Site 0 + Num (1#4) / Site 7 - Num (1#4) / Site 13 + Num (1#1) / Site 12 - Num (1#4) / Site 14 + Num (1#4) / Site 16 - Num (1#2) / Site 15 - Num (1#4) / Site 17 + Num (1#2) / Site 10);
    Num (83143#10000) * (Num (1#4) / Site 0 + Num (1#4) / Site 7 - Num (1#4) / Site 13 + Num (1#1) / Site 12 - Num (1#4) / Site 14 + Num (1#4) / Site 16 - Num (1#2) / Site 15 - Num (1#4) / Site 17);
    Num (83143#10000) * (Num (1#2) / Site 7 + Num (1#1) / Site 12 - Num (1#2) / Site 14 + Num (1#2) / Site 16 - Num (1#2) / Site 15 - Num (1#2) / Site 17 + Num (1#4) / Site 10);
    Num (83143#10000) * (Num (1#4) / Site 7 + Num (1#2) / Site 12 - Num (1#4) / Site 14 - Num (1#4) / Site 16 + Num (1#4) / Site 15 - Num (1#4) / Site 17 - Num (1#8) / Site 10);
    Num (-83143#40000) / Site 7 - Num (-7247211#25000000)];
    [Num (83143#10000) * (Num (1#2) / Site 7);
    Num (83143#10000) * (Num (1#4) / Site 0 + Num (1#4) / Site 7 - Num (1#4) / Site 13 + Num (1#1) / Site 12 - Num (1#4) / Site 14 + Num (1#4) / Site 16 - Num (1#2) / Site 15 - Num (1#4) / Site 17);
    Num (83143#10000) * (Num (1#4) / Site 0 + Num (1#4) / Site 7 - Num (1#4) / Site 13 + Num (1#1) / Site 12 - Num (1#4) / Site 14 + Num (1#4) / Site 16 - Num (1#2) / Site 15 - Num (1#4) / Site 17 + Num (1#2) / Site 11);
    Num (83143#10000) * (Num (1#2) / Site 7 + Num (1#1) / Site 12 - Num (1#2) / Site 14 + Num (1#2) / Site 16 - Num (1#2) / Site 15 - Num (1#2) / Site 17 + Num (1#4) / Site 11);
    Num (83143#10000) * (Num (1#4) / Site 7 + Num (1#2) / Site 12 - Num (1#4) / Site 14 - Num (1#4) / Site 16 + Num (1#4) / Site 15 - Num (1#4) / Site 17 - Num (1#8) / Site 11);
    Num (-83143#40000) / Site 7 - Num (-7247211#25000000)];
    [Num (83143#10000) * (Num (1#1) / Site 7);
    Num (83143#10000) * (Num (1#2) / Site 7 + Num (1#1) / Site 12 - Num (1#2) / Site 14 + Num (1#2) / Site 16 - Num (1#2) / Site 15 - Num (1#2) / Site 17 + Num (1#4) / Site 10);
    Num (83143#10000) * (Num (1#2) / Site 7 + Num (1#1) / Site 12 - Num (1#2) / Site 14 + Num (1#2) / Site 16 - Num (1#2) / Site 15 - Num (1#2) / Site 17 + Num (1#4) / Site 11);
    Num (83143#10000) * (Num (1#4) / Site 4 + Num (1#4) / Site 6 + Num (1#1) / Site 7 + Num (1#1) / Site 12 - Num (1#1) / Site 14 - Num (1#2) / Site 15 + Num (1#8) / Site 10 + Num (1#8) / Site 11 + Num (1#1) / Site 16 - Num (1#1) / Site 17);
    Num (83143#10000) * (Num (1#8) / Site 4 + Num (1#8) / Site 6 + Num (1#2) / Site 7 + Num (1#2) / Site 12 - Num (1#2) / Site 14 + Num (1#4) / Site 15 - Num (1#16) / Site 10 - Num (1#16) / Site 11 - Num (1#2) / Site 16 - Num (1#2) / Site 17);
    Num (-83143#20000) / Site 7 - Num (-7247211#12500000)];
    [Num (83143#10000) * (Num (1#2) / Site 7);
    Num (83143#10000) * (Num (1#4) / Site 7 + Num (1#2) / Site 12 - Num (1#4) / Site 14 - Num (1#4) / Site 16 + Num (1#4) / Site 15 - Num (1#4) / Site 17 - Num (1#8) / Site 10);
    Num (83143#10000) * (Num (1#4) / Site 7 + Num (1#2) / Site 12 - Num (1#4) / Site 14 - Num (1#4) / Site 16 + Num (1#4) / Site 15 - Num (1#4) / Site 17 - Num (1#8) / Site 11);
    Num (83143#10000) * (Num (1#8) / Site 4 + Num (1#8) / Site 6 + Num (1#2) / Site 7 + Num (1#2) / Site 12 - Num (1#2) / Site 14 + Num (1#4) / Site 15 - Num (1#16) / Site 10 - Num (1#16) / Site 11 - Num (1#2) / Site 16 - Num (1#2) / Site 17);
    Num (83143#10000) * (Num (1#16) / Site 4 + Num (1#16) / Site 6 + Num (1#4) / Site 7 + Num (1#4) / Site 12 - Num (1#4) / Site 14 - Num (1#8) / Site 15 + Num (1#32) / Site 10 + Num (1#32) / Site 11 + Num (1#1) / Site 1 + Num (1#1) / Site 2 + Num (1#4) / Site 16 - Num (1#4) / Site 17 - Num (1#1) / Site 18);
    Num (83143#10000) * (Num (-1#4) / Site 7 + Num (1#1) / Site 1) - Num (-7247211#25000000)];
    [Num (-83143#10000) * (Num (1#2) / Site 5 + Num (1#2) / Site 7) - Num (-7247211#6250000);
    Num (-83143#40000) / Site 7 - Num (-7247211#25000000);
    Num (-83143#40000) / Site 7 - Num (-7247211#25000000);
    Num (-83143#20000) / Site 7 - Num (-7247211#12500000);
    Num (83143#10000) * (Num (-1#4) / Site 7 + Num (1#1) / Site 1) - Num (-7247211#25000000);
    Num (83143#10000) * (Num (1#4) / Site 7 + Num (1#4) / Site 5 + Num (1#1) / Site 1 + Num (1#4) / Site 9 + Num (1#4) / Site 8) - Num (7247211#6250000)]].
(** sources/orthopyroxene.c 3299: macro fillD3GDR2DP *)
Definition oOpx_d3gdr2dp :=
  [[Num (-14121#500000) + Num (-3661#250000) * Var 7 * Num (2#1) + Num (3661#250000) * Var 41 * Num (2#1);
    Num (-14121#2000000) + Num (3661#125000) * Var 7 + Num (-8891#125000) * Var 41;
    Num (-14121#2000000) + Num (3661#125000) * Var 7 + Num (-8891#125000) * Var 41;
    Num (-14121#1000000) + Num (3661#125000) * Var 7 + Num (-8891#125000) * Var 41;
    Num (-14121#2000000) + Num (3661#250000) * Var 7 + Num (-8891#250000) * Var 41;
    Num (-65879#5000000) + Num (-3661#250000) * Var 2 * Num (2#1) + Num (3661#125000) * Var 3 + Num (3661#125000) * Var 4 + Num (3661#125000) * Var 5 + Num (3661#250000) * Var 6 + Num (40271#500000) * Var 7 * Num (2#1) + Num (-1569#10000) * Var 41];
    [Num (-14121#2000000) + Num (3661#125000) * Var 7 + Num (-8891#125000) * Var 41;
    Num (1569#62500) * Var 7 * Num (2#1) + Num (-1569#62500) * Var 41 * Num (2#1);
    Num (27719#500000) * Var 7 + Num (-22489#500000) * Var 41;
    Num (22489#500000) * Var 7 + Num (-27719#500000) * Var 41;
    Num (1569#62500) * Var 7 + Num (-1569#62500) * Var 41;
    Num (-306081#5000000) + Num (3661#125000) * Var 2 + Num (1569#62500) * Var 3 * Num (2#1) + Num (27719#500000) * Var 4 + Num (22489#500000) * Var 5 + Num (1569#62500) * Var 6 + Num (25627#1000000) * Var 7 * Num (2#1) + Num (-10983#250000) * Var 41];
    [Num (-14121#2000000) + Num (3661#125000) * Var 7 + Num (-8891#125000) * Var 41;
    Num (27719#500000) * Var 7 + Num (-22489#500000) * Var 41;
    Num (1569#62500) * Var 7 * Num (2#1) + Num (-1569#62500) * Var 41 * Num (2#1);
    Num (22489#500000) * Var 7 + Num (-27719#500000) * Var 41;
    Num (9937#500000) * Var 7 + Num (-15167#500000) * Var 41;
    Num (-306081#5000000) + Num (3661#125000) * Var 2 + Num (27719#500000) * Var 3 + Num (1569#62500) * Var 4 * Num (2#1) + Num (22489#500000) * Var 5 + Num (9937#500000) * Var 6 + Num (25627#1000000) * Var 7 * Num (2#1) + Num (-10983#250000) * Var 41];
    [Num (-14121#1000000) + Num (3661#125000) * Var 7 + Num (-8891#125000) * Var 41;
    Num (22489#500000) * Var 7 + Num (-27719#500000) * Var 41;
    Num (22489#500000) * Var 7 + Num (-27719#500000) * Var 41;
    Num (3661#250000) * Var 7 * Num (2#1) + Num (-8891#250000) * Var 41 * Num (2#1);
    Num (3661#250000) * Var 7 + Num (-8891#250000) * Var 41;
    Num (-81191#2500000) + Num (3661#125000) * Var 2 + Num (22489#500000) * Var 3 + Num (22489#500000) * Var 4 + Num (3661#250000) * Var 5 * Num (2#1) + Num (3661#250000) * Var 6 + Num (3661#500000) * Var 7 * Num (2#1) + Num (-16213#250000) * Var 41];
    [Num (-14121#2000000) + Num (3661#250000) * Var 7 + Num (-8891#250000) * Var 41;
    Num (1569#62500) * Var 7 + Num (-1569#62500) * Var 41;
    Num (9937#500000) * Var 7 + Num (-15167#500000) * Var 41;
    Num (3661#250000) * Var 7 + Num (-8891#250000) * Var 41;
    Num (4707#2000000) * Var 7 * Num (2#1) + Num (-20397#2000000) * Var 41 * Num (2#1);
    Num (-81191#5000000) + Num (3661#250000) * Var 2 + Num (1569#62500) * Var 3 + Num (9937#500000) * Var 4 + Num (3661#250000) * Var 5 + Num (4707#2000000) * Var 6 * Num (2#1) + Num (3661#1000000) * Var 7 * Num (2#1) + Num (-16213#500000) * Var 41];
    [Num (-65879#5000000) + Num (-3661#250000) * Var 2 * Num (2#1) + Num (3661#125000) * Var 3 + Num (3661#125000) * Var 4 + Num (3661#125000) * Var 5 + Num (3661#250000) * Var 6 + Num (40271#500000) * Var 7 * Num (2#1) + Num (-1569#10000) * Var 41;
    Num (-306081#5000000) + Num (3661#125000) * Var 2 + Num (1569#62500) * Var 3 * Num (2#1) + Num (27719#500000) * Var 4 + Num (22489#500000) * Var 5 + Num (1569#62500) * Var 6 + Num (25627#1000000) * Var 7 * Num (2#1) + Num (-10983#250000) * Var 41;
    Num (-306081#5000000) + Num (3661#125000) * Var 2 + Num (27719#500000) * Var 3 + Num (1569#62500) * Var 4 * Num (2#1) + Num (22489#500000) * Var 5 + Num (9937#500000) * Var 6 + Num (25627#1000000) * Var 7 * Num (2#1) + Num (-10983#250000) * Var 41;
    Num (-81191#2500000) + Num (3661#125000) * Var 2 + Num (22489#500000) * Var 3 + Num (22489#500000) * Var 4 + Num (3661#250000) * Var 5 * Num (2#1) + Num (3661#250000) * Var 6 + Num (3661#500000) * Var 7 * Num (2#1) + Num (-16213#250000) * Var 41;
    Num (-81191#5000000) + Num (3661#250000) * Var 2 + Num (1569#62500) * Var 3 + Num (9937#500000) * Var 4 + Num (3661#250000) * Var 5 + Num (4707#2000000) * Var 6 * Num (2#1) + Num (3661#1000000) * Var 7 * Num (2#1) + Num (-16213#500000) * Var 41;
    Num (-15627#625000) + Num (40271#500000) * Var 2 * Num (2#1) + Num (25627#1000000) * Var 3 * Num (2#1) + Num (25627#1000000) * Var 4 * Num (2#1) + Num (3661#500000) * Var 5 * Num (2#1) + Num (3661#1000000) * Var 6 * Num (2#1) + Num (-10983#250000) * Var 7 * Num (6#1) + Num (1569#125000) * Var 41 * Num (2#1)]].
(** sources/orthopyroxene.c 3319: macro fillD3GDRDS2 *)
Definition oOpx_d3gdrds2 :=
  [[[Num (0#1);
    Num (0#1)];
    [Num (0#1);
    Num (-83143#10000) * Var 0 * (Num (1#4) / (Site 5 * Site 5) - Num (1#4) / (Site 7 * Site 7)) + (Num (1046#5) + (Var 1 - Num (1#1)) * Num (-3661#500000)) * Num (2#1)]];
    [[Num (-83143#10000) * Var 0 * Num (1#16) / (Site 10 * Site 10);
    Num (0#1)];
    [Num (0#1);
    Num (83143#10000) * Var 0 * Num (1#8) / (Site 7 * Site 7) + (Num (-108261#10) + (Var 1 - Num (1#1)) * Num (16213#200000)) * Num (2#1)]];
    [[Num (-83143#10000) * Var 0 * Num (1#16) / (Site 11 * Site 11);
    Num (0#1)];
    [Num (0#1);
    Num (83143#10000) * Var 0 * Num (1#8) / (Site 7 * Site 7) + (Num (-108261#10) + (Var 1 - Num (1#1)) * Num (16213#200000)) * Num (2#1)]];
    [[Num (-83143#10000) * Var 0 * (Num (1#8) / (Site 4 * Site 4) + Num (1#8) / (Site 6 * Site 6) + Num (1#32) / (Site 10 * Site 10) + Num (1#32) / (Site 11 * Site 11));
    Num (0#1)];
    [Num (0#1);
    Num (83143#10000) * Var 0 * Num (1#4) / (Site 7 * Site 7) + (Num (-51254#5) + (Var 1 - Num (1#1)) * Num (1569#20000)) * Num (2#1)]];
    [[Num (-83143#10000) * Var 0 * (Num (1#16) / (Site 4 * Site 4) + Num (1#16) / (Site 6 * Site 6) - Num (1#64) / (Site 10 * Site 10) - Num (1#64) / (Site 11 * Site 11));
    Num (0#1)];
    [Num (0#1);
    Num (83143#10000) * Var 0 * Num (1#8) / (Site 7 * Site 7) + (Num (-25627#5) + (Var 1 - Num (1#1)) * Num (1569#40000)) * Num (2#1)]];
    [[Num (0#1);
    Num (0#1)];
    [Num (0#1);
    Num (-83143#10000) * Var 0 * (Num (1#8) / (Site 7 * Site 7) - Num (1#8) / (Site 5 * Site 5) + Num (1#8) / (Site 9 * Site 9) + Num (1#8) / (Site 8 * Site 8)) + (Num (-102508#5) + (Var 1 - Num (1#1)) * Num (1569#10000)) * Num (2#1)]]].
(** sources/orthopyroxene.c 3333: macro fillD3GDRDSDT *)
Definition oOpx_d3gdrdsdt :=
  [[Num (0#1);
    Num (-83143#10000) * (Num (1#2) / Site 5 + Num (1#2) / Site 7)];
    [Num (83143#40000) / Site 10;
    Num (-83143#40000) / Site 7 - Num (-7247211#25000000)];
    [Num (-83143#40000) / Site 11;
    Num (-83143#40000) / Site 7 - Num (-7247211#25000000)];
    [Num (83143#10000) * (Num (-1#4) / Site 4 + Num (1#4) / Site 6 + Num (1#8) / Site 10 - Num (1#8) / Site 11);
    Num (-83143#20000) / Site 7 - Num (-7247211#12500000)];
    [Num (83143#10000) * (Num (-1#8) / Site 4 + Num (1#8) / Site 6 - Num (1#16) / Site 10 + Num (1#16) / Site 11);
    Num (-83143#40000) / Site 7 - Num (-7247211#25000000)];
    [Num (0#1);
    Num (83143#10000) * (Num (1#4) / Site 7 + Num (1#4) / Site 5 - Num (1#4) / Site 9 + Num (1#4) / Site 8) - Num (7247211#12500000)]].
(** sources/orthopyroxene.c 3341: macro fillD3GDRDSDP *)
Definition oOpx_d3gdrdsdp :=
  [[Num (0#1);
    Num (8891#62500) + Num (3661#250000) * Var 2 * Num (2#1) + Num (-8891#125000) * Var 3 + Num (-8891#125000) * Var 4 + Num (-8891#125000) * Var 5 + Num (-8891#250000) * Var 6 + Num (-1569#10000) * Var 7 + Num (-3661#500000) * Var 41 * Num (2#1)];
    [Num (0#1);
    Num (363359#5000000) + Num (-8891#125000) * Var 2 + Num (-1569#62500) * Var 3 * Num (2#1) + Num (-22489#500000) * Var 4 + Num (-27719#500000) * Var 5 + Num (-1569#62500) * Var 6 + Num (-10983#250000) * Var 7 + Num (16213#200000) * Var 41 * Num (2#1)];
    [Num (0#1);
    Num (363359#5000000) + Num (-8891#125000) * Var 2 + Num (-22489#500000) * Var 3 + Num (-1569#62500) * Var 4 * Num (2#1) + Num (-27719#500000) * Var 5 + Num (-15167#500000) * Var 6 + Num (-10983#250000) * Var 7 + Num (16213#200000) * Var 41 * Num (2#1)];
    [Num (0#1);
    Num (253529#2500000) + Num (-8891#125000) * Var 2 + Num (-27719#500000) * Var 3 + Num (-27719#500000) * Var 4 + Num (-8891#250000) * Var 5 * Num (2#1) + Num (-8891#250000) * Var 6 + Num (-16213#250000) * Var 7 + Num (1569#20000) * Var 41 * Num (2#1)];
    [Num (0#1);
    Num (253529#5000000) + Num (-8891#250000) * Var 2 + Num (-1569#62500) * Var 3 + Num (-15167#500000) * Var 4 + Num (-8891#250000) * Var 5 + Num (-20397#2000000) * Var 6 * Num (2#1) + Num (-16213#500000) * Var 7 + Num (1569#40000) * Var 41 * Num (2#1)];
    [Num (0#1);
    Num (55041#2500000) + Num (-1569#10000) * Var 2 + Num (-10983#250000) * Var 3 + Num (-10983#250000) * Var 4 + Num (-16213#250000) * Var 5 + Num (-16213#500000) * Var 6 + Num (1569#125000) * Var 7 * Num (2#1) + Num (1569#10000) * Var 41 * Num (2#1)]].
(** sources/orthopyroxene.c 3349: macro fillD3GDS3 *)
Definition oOpx_d3gds3 :=
  [[[Num (-83143#10000) * Var 0 * (Num (1#8) / (Site 6 * Site 6) - Num (1#8) / (Site 4 * Site 4) + Num (1#32) / (Site 10 * Site 10) - Num (1#32) / (Site 11 * Site 11));
    Num (0#1)];
    [Num (0#1);
    Num (0#1)]];
    [[Num (0#1);
    Num (0#1)];
    [Num (0#1);
    Num (-83143#10000) * Var 0 * (Num (1#8) / (Site 7 * Site 7) - Num (1#8) / (Site 5 * Site 5) + Num (1#8) / (Site 8 * Site 8) - Num (1#8) / (Site 9 * Site 9))]]].
(** sources/orthopyroxene.c 3355: macro fillD3GDS2DT *)
Definition oOpx_d3gds2dt :=
  [[Num (83143#10000) * (Num (1#4) / Site 6 + Num (1#4) / Site 4 + Num (1#8) / Site 10 + Num (1#8) / Site 11);
    Num (0#1)];
    [Num (0#1);
    Num (83143#10000) * (Num (1#4) / Site 7 + Num (1#4) / Site 5 + Num (1#4) / Site 8 + Num (1#4) / Site 9)]].
(** sources/orthopyroxene.c 3359: macro fillD3GDS2DP *)
Definition oOpx_d3gds2dp :=
  [[Num (0#1);
    Num (0#1)];
    [Num (0#1);
    Num (-74789#250000) + Num (-3661#500000) * Var 2 * Num (2#1) + Num (16213#200000) * Var 3 * Num (2#1) + Num (16213#200000) * Var 4 * Num (2#1) + Num (1569#20000) * Var 5 * Num (2#1) + Num (1569#40000) * Var 6 * Num (2#1) + Num (1569#10000) * Var 7 * Num (2#1)]].
(** sources/orthopyroxene.c 3363: macro fillD3GDSDT2 *)
Definition oOpx_d3gdsdt2 :=
  [Num (0#1);
    Num (0#1)].
(** sources/orthopyroxene.c 3366: macro fillD3GDSDTDP *)
Definition oOpx_d3gdsdtdp :=
  [Num (0#1);
    Num (0#1)].
(** sources/orthopyroxene.c 3369: macro fillD3GDSDP2 *)
Definition oOpx_d3gdsdp2 :=
  [Num (0#1);
    Num (0#1)].
(** sources/orthopyroxene.c 3372: macro fillD3GDRDT2 *)
Definition oOpx_d3gdrdt2 :=
  [Num (0#1);
    Num (0#1);
    Num (0#1);
    Num (0#1);
    Num (0#1);
    Num (0#1)].
(** sources/orthopyroxene.c 3377: macro fillD3GDRDTDP *)
Definition oOpx_d3gdrdtdp :=
  [Num (0#1);
    Num (0#1);
    Num (0#1);
    Num (0#1);
    Num (0#1);
    Num (0#1)].
(** sources/orthopyroxene.c 3382: macro fillD3GDRDP2 *)
Definition oOpx_d3gdrdp2 :=
  [Num (0#1);
    Num (0#1);
    Num (0#1);
    Num (0#1);
    Num (0#1);
    Num (0#1)].
(** sources/orthopyroxene.c 2643: macro D2GDT2 *)
Definition oOpx_D2GDT2 :=
  Num (0#1).
(** sources/orthopyroxene.c 2644: macro D2GDTDP *)
Definition oOpx_D2GDTDP :=
  Num (0#1).
(** sources/orthopyroxene.c 2645: macro D2GDP2 *)
Definition oOpx_D2GDP2 :=
  Num (0#1).
(** sources/orthopyroxene.c 3057: macro D3GDT3 *)
Definition oOpx_D3GDT3 :=
  Num (0#1).
(** sources/orthopyroxene.c 3058: macro D3GDT2DP *)
Definition oOpx_D3GDT2DP :=
  Num (0#1).
(** sources/orthopyroxene.c 3059: macro D3GDTDP2 *)
Definition oOpx_D3GDTDP2 :=
  Num (0#1).
(** sources/orthopyroxene.c 3060: macro D3GDP3 *)
Definition oOpx_D3GDP3 :=
  Num (0#1).
(** sources/orthopyroxene.c 1844: macro ENDMEMBERS *)
Definition oOpx_end :=
  (Num (1#1) - Var 2 - Var 3 - Var 4 - Var 5 - Var 6 / Num (2#1) - Var 7) * Var 60 + Var 7 * Var 61 + Var 2 * Var 62 + (Var 3 - Var 6 / Num (2#1)) * Var 63 + (Var 4 + Var 6 / Num (2#1)) * Var 64 + (Var 5 - Var 6 / Num (2#1)) * Var 65 + Var 6 * Var 66.
(** sources/orthopyroxene.c 1849-1854: macros DENDDRi *)
Definition oOpx_dend :=
  [Var 62 - Var 60;
    Var 63 - Var 60;
    Var 64 - Var 60;
    Var 65 - Var 60;
    Var 66 + Num (1#2) * (Var 64 - Var 60 - Var 63 - Var 65);
    Var 61 - Var 60].
(** sources/orthopyroxene.c, order: the site fractions and their clamps *)
Definition oOpx_sites := [mkSite ((Var 3 + Var 4) / Num (2#1)) Both;
    mkSite (Num (1#1) - Var 6 - Var 7) Low;
    mkSite (Var 6) Both;
    mkSite ((Num (4#1) - Num (2#1) * Var 3 - Num (2#1) * Var 4 - Num (2#1) * Var 5 + Var 6) / Num (4#1)) Both;
    mkSite ((Num (2#1) * Var 5 + Var 6 - Num (2#1) * Var 40) / Num (4#1)) Low;
    mkSite ((Num (2#1) * Var 2 - Var 7 - Var 41) / Num (2#1)) Low;
    mkSite ((Num (2#1) * Var 5 + Var 6 + Num (2#1) * Var 40) / Num (4#1)) Low;
    mkSite (Num (1#1) - Var 2 - Var 5 - Num (1#2) * (Var 3 + Var 4 + Var 6 - Var 7 - Var 41)) Low;
    mkSite ((Var 7 + Var 41) / Num (2#1)) Low;
    mkSite ((Var 7 - Var 41) / Num (2#1)) Low;
    mkSite ((Num (4#1) * Var 3 + Num (2#1) * Var 5 - Var 6 + Num (2#1) * Var 40) / Num (8#1)) Low;
    mkSite ((Num (4#1) * Var 4 + Num (2#1) * Var 5 - Var 6 - Num (2#1) * Var 40) / Num (8#1)) Low;
    mkSite (Num (1#1) - Var 2 - Var 5 - Num (1#2) * (Var 3 + Var 4 + Var 6 - Var 7 - Var 41) + (Num (2#1) * Var 2 - Var 7 - Var 41) / Num (2#1) - (Var 3 + Var 4) / Num (2#1)) Free;
    mkSite (Num (1#1) - (Var 3 + Var 4) / Num (2#1)) Free;
    mkSite (Num (1#1) - Var 2 - Var 5 - Num (1#2) * (Var 3 + Var 4 + Var 6 - Var 7 - Var 41) + (Num (2#1) * Var 2 - Var 7 - Var 41) / Num (2#1)) Free;
    mkSite (Num (1#1) - (Num (4#1) - Num (2#1) * Var 3 - Num (2#1) * Var 4 - Num (2#1) * Var 5 + Var 6) / Num (4#1)) Free;
    mkSite (Num (1#1) - (Num (1#1) - Var 2 - Var 5 - Num (1#2) * (Var 3 + Var 4 + Var 6 - Var 7 - Var 41)) - (Num (2#1) * Var 2 - Var 7 - Var 41) / Num (2#1) - Var 6) Free;
    mkSite (Num (1#1) - (Num (1#1) - Var 2 - Var 5 - Num (1#2) * (Var 3 + Var 4 + Var 6 - Var 7 - Var 41)) - (Num (2#1) * Var 2 - Var 7 - Var 41) / Num (2#1)) Free;
    mkSite (Num (1#1) - Var 6) Free].
Definition oOpx := mkOrd "orthopyroxene" 7 6 2 LU true oOpx_sites (Some (oOpx_end, oOpx_dend)) oOpx_g oOpx_s oOpx_v oOpx_r1 oOpx_s1
  oOpx_d2gdr2 oOpx_d2gdrds oOpx_d2gdrdt oOpx_d2gdrdp oOpx_d2gds2 oOpx_d2gdsdt oOpx_d2gdsdp oOpx_d3gdr3 oOpx_d3gdr2ds oOpx_d3gdr2dt oOpx_d3gdr2dp oOpx_d3gdrds2 oOpx_d3gdrdsdt oOpx_d3gdrdsdp oOpx_d3gds3 oOpx_d3gds2dt oOpx_d3gds2dp oOpx_d3gdsdt2 oOpx_d3gdsdtdp oOpx_d3gdsdp2 oOpx_d3gdrdt2 oOpx_d3gdrdtdp oOpx_d3gdrdp2 oOpx_D2GDT2 oOpx_D2GDTDP oOpx_D2GDP2 oOpx_D3GDT3 oOpx_D3GDT2DP oOpx_D3GDTDP2 oOpx_D3GDP3.
(** sources/rhombohedral.c 1292: macro G *)
Definition oRhm_g :=
  Num (17000#1) * (Var 2 - Var 40 * Var 40) + Num (17000#1) * (Var 3 - Var 41 * Var 41) + Num (17000#1) * (Var 4 - Var 42 * Var 42) + Num (5000#1) * Var 2 * (Num (1#1) - Var 2 - Var 3 - Var 4) + Num (25000#1) * Var 2 * Var 3 + Num (2200#1) * Var 2 * Var 4 + Num (5000#1) * Var 3 * (Num (1#1) - Var 2 - Var 3 - Var 4) + Num (25000#1) * Var 3 * Var 4 + Num (5000#1) * Var 4 * (Num (1#1) - Var 2 - Var 3 - Var 4) - Num (2#1) * Var 40 * Var 40 * (Num (1#1) - Var 2 - Var 3 - Var 4) * Num (-2000#1) - Num (2#1) * Var 41 * Var 41 * (Num (1#1) - Var 2 - Var 3 - Var 4) * Num (-2000#1) - Num (2#1) * Var 42 * Var 42 * (Num (1#1) - Var 2 - Var 3 - Var 4) * Num (-2000#1) + Num (2#1) * Var 40 * Var 40 * Var 3 * Num (-5000#1) + Num (2#1) * Var 41 * Var 41 * Var 2 * Num (-9000#1) + Num (2#1) * Var 41 * Var 41 * Var 4 * Num (-9000#1) + Num (2#1) * Var 42 * Var 42 * Var 3 * Num (-5000#1) + Var 40 * Var 41 * Num (-40000#1) + Var 40 * Var 42 * Num (-34000#1) + Var 41 * Var 42 * Num (-40000#1) - Var 0 * (Num (-83143#10000) * (Site 0 * Log 0 + Site 1 * Log 1 + Site 2 * Log 2 + Site 3 * Log 3 + Site 4 * Log 4 + Site 5 * Log 5 + Site 6 * Log 6 + Site 7 * Log 7 + Site 8 * Log 8 + Site 4 * Log 4)).
(** sources/rhombohedral.c 1275: macro S *)
Definition oRhm_s :=
  Num (-83143#10000) * (Site 0 * Log 0 + Site 1 * Log 1 + Site 2 * Log 2 + Site 3 * Log 3 + Site 4 * Log 4 + Site 5 * Log 5 + Site 6 * Log 6 + Site 7 * Log 7 + Site 8 * Log 8 + Site 4 * Log 4).
(** sources/rhombohedral.c 1333: macro DGDP *)
Definition oRhm_v :=
  Num (0#1).
(** sources/rhombohedral.c 1296-1310: macros DGDRi *)
Definition oRhm_r1 :=
  [Num (83143#10000) * Var 0 * (Num (1#2) * Log 0 + Num (1#2) * Log 3 - Log 4 + Num (1#2) * Log 5 + Num (1#2) * Log 8 - Log 4) + Num (17000#1) + Num (5000#1) * (Num (1#1) - Num (2#1) * Var 2 - Var 3 - Var 4) + Num (25000#1) * Var 3 + Num (2200#1) * Var 4 - Num (5000#1) * Var 3 - Num (5000#1) * Var 4 + Num (2#1) * Var 40 * Var 40 * Num (-2000#1) + Num (2#1) * Var 41 * Var 41 * Num (-2000#1) + Num (2#1) * Var 42 * Var 42 * Num (-2000#1) + Num (2#1) * Var 41 * Var 41 * Num (-9000#1);
    Num (83143#10000) * Var 0 * (Num (1#2) * Log 1 + Num (1#2) * Log 3 - Log 4 + Num (1#2) * Log 6 + Num (1#2) * Log 8 - Log 4) + Num (17000#1) - Num (5000#1) * Var 2 + Num (25000#1) * Var 2 + Num (5000#1) * (Num (1#1) - Var 2 - Num (2#1) * Var 3 - Var 4) + Num (25000#1) * Var 4 - Num (5000#1) * Var 4 + Num (2#1) * Var 40 * Var 40 * Num (-2000#1) + Num (2#1) * Var 41 * Var 41 * Num (-2000#1) + Num (2#1) * Var 42 * Var 42 * Num (-2000#1) + Num (2#1) * Var 40 * Var 40 * Num (-5000#1) + Num (2#1) * Var 42 * Var 42 * Num (-5000#1);
    Num (83143#10000) * Var 0 * (Num (1#2) * Log 2 + Num (1#2) * Log 3 - Log 4 + Num (1#2) * Log 7 + Num (1#2) * Log 8 - Log 4) + Num (17000#1) - Num (5000#1) * Var 2 + Num (2200#1) * Var 2 - Num (5000#1) * Var 3 + Num (25000#1) * Var 3 + Num (5000#1) * (Num (1#1) - Var 2 - Var 3 - Num (2#1) * Var 4) + Num (2#1) * Var 40 * Var 40 * Num (-2000#1) + Num (2#1) * Var 41 * Var 41 * Num (-2000#1) + Num (2#1) * Var 42 * Var 42 * Num (-2000#1) + Num (2#1) * Var 41 * Var 41 * Num (-9000#1)].
(** sources/rhombohedral.c 1317-1327: macros DGDSi *)
Definition oRhm_s1 :=
  [Num (83143#20000) * Var 0 * (Log 0 - Log 3 - Log 5 + Log 8) - Num (34000#1) * Var 40 - Num (4#1) * Var 40 * (Num (1#1) - Var 2 - Var 3 - Var 4) * Num (-2000#1) + Num (4#1) * Var 40 * Var 3 * Num (-5000#1) + Var 41 * Num (-40000#1) + Var 42 * Num (-34000#1);
    Num (83143#20000) * Var 0 * (Log 1 - Log 3 - Log 6 + Log 8) - Num (34000#1) * Var 41 - Num (4#1) * Var 41 * (Num (1#1) - Var 2 - Var 3 - Var 4) * Num (-2000#1) + Num (4#1) * Var 41 * Var 2 * Num (-9000#1) + Num (4#1) * Var 41 * Var 4 * Num (-9000#1) + Var 40 * Num (-40000#1) + Var 42 * Num (-40000#1);
    Num (83143#20000) * Var 0 * (Log 2 - Log 3 - Log 7 + Log 8) - Num (34000#1) * Var 42 - Num (4#1) * Var 42 * (Num (1#1) - Var 2 - Var 3 - Var 4) * Num (-2000#1) + Num (4#1) * Var 42 * Var 3 * Num (-5000#1) + Var 40 * Num (-34000#1) + Var 41 * Num (-40000#1)].
(** sources/rhombohedral.c 1575: macro fillD2GDR2 *)
Definition oRhm_d2gdr2 :=
  [[Num (83143#10000) * Var 0 * (Num (1#4) / Site 0 + Num (1#4) / Site 3 + Num (1#1) / Site 4 + Num (1#4) / Site 5 + Num (1#4) / Site 8 + Num (1#1) / Site 4) - Num (10000#1);
    Num (83143#10000) * Var 0 * (Num (1#4) / Site 3 + Num (1#1) / Site 4 + Num (1#4) / Site 8 + Num (1#1) / Site 4) - Num (5000#1) + Num (25000#1) - Num (5000#1);
    Num (83143#10000) * Var 0 * (Num (1#4) / Site 3 + Num (1#1) / Site 4 + Num (1#4) / Site 8 + Num (1#1) / Site 4) - Num (5000#1) + Num (2200#1) - Num (5000#1)];
    [Num (83143#10000) * Var 0 * (Num (1#4) / Site 3 + Num (1#1) / Site 4 + Num (1#4) / Site 8 + Num (1#1) / Site 4) - Num (5000#1) + Num (25000#1) - Num (5000#1);
    Num (83143#10000) * Var 0 * (Num (1#4) / Site 1 + Num (1#4) / Site 3 + Num (1#1) / Site 4 + Num (1#4) / Site 6 + Num (1#4) / Site 8 + Num (1#1) / Site 4) - Num (10000#1);
    Num (83143#10000) * Var 0 * (Num (1#4) / Site 3 + Num (1#1) / Site 4 + Num (1#4) / Site 8 + Num (1#1) / Site 4) - Num (5000#1) + Num (25000#1) - Num (5000#1)];
    [Num (83143#10000) * Var 0 * (Num (1#4) / Site 3 + Num (1#1) / Site 4 + Num (1#4) / Site 8 + Num (1#1) / Site 4) - Num (5000#1) + Num (2200#1) - Num (5000#1);
    Num (83143#10000) * Var 0 * (Num (1#4) / Site 3 + Num (1#1) / Site 4 + Num (1#4) / Site 8 + Num (1#1) / Site 4) - Num (5000#1) + Num (25000#1) - Num (5000#1);
    Num (83143#10000) * Var 0 * (Num (1#4) / Site 2 + Num (1#4) / Site 3 + Num (1#1) / Site 4 + Num (1#4) / Site 7 + Num (1#4) / Site 8 + Num (1#1) / Site 4) - Num (10000#1)]].
(** sources/rhombohedral.c 1583: macro fillD2GDRDS *)
Definition oRhm_d2gdrds :=
  [[Num (83143#40000) * Var 0 * (Num (1#1) / Site 0 - Num (1#1) / Site 3 - Num (1#1) / Site 5 + Num (1#1) / Site 8) + Num (4#1) * Var 40 * Num (-2000#1);
    Num (83143#40000) * Var 0 * (Num (-1#1) / Site 3 + Num (1#1) / Site 8) + Num (4#1) * Var 41 * Num (-2000#1) + Num (4#1) * Var 41 * Num (-9000#1);
    Num (83143#40000) * Var 0 * (Num (-1#1) / Site 3 + Num (1#1) / Site 8) + Num (4#1) * Var 42 * Num (-2000#1)];
    [Num (83143#40000) * Var 0 * (Num (-1#1) / Site 3 + Num (1#1) / Site 8) + Num (4#1) * Var 40 * Num (-2000#1) + Num (4#1) * Var 40 * Num (-5000#1);
    Num (83143#40000) * Var 0 * (Num (1#1) / Site 1 - Num (1#1) / Site 3 - Num (1#1) / Site 6 + Num (1#1) / Site 8) + Num (4#1) * Var 41 * Num (-2000#1);
    Num (83143#40000) * Var 0 * (Num (-1#1) / Site 3 + Num (1#1) / Site 8) + Num (4#1) * Var 42 * Num (-2000#1) + Num (4#1) * Var 42 * Num (-5000#1)];
    [Num (83143#40000) * Var 0 * (Num (-1#1) / Site 3 + Num (1#1) / Site 8) + Num (4#1) * Var 40 * Num (-2000#1);
    Num (83143#40000) * Var 0 * (Num (-1#1) / Site 3 + Num (1#1) / Site 8) + Num (4#1) * Var 41 * Num (-2000#1) + Num (4#1) * Var 41 * Num (-9000#1);
    Num (83143#40000) * Var 0 * (Num (1#1) / Site 2 - Num (1#1) / Site 3 - Num (1#1) / Site 7 + Num (1#1) / Site 8) + Num (4#1) * Var 42 * Num (-2000#1)]].
(** sources/rhombohedral.c 1588: macro fillD2GDRDT *)
Definition oRhm_d2gdrdt :=
  [Num (83143#10000) * (Num (1#2) * Log 0 + Num (1#2) * Log 3 - Log 4 + Num (1#2) * Log 5 + Num (1#2) * Log 8 - Log 4);
    Num (83143#10000) * (Num (1#2) * Log 1 + Num (1#2) * Log 3 - Log 4 + Num (1#2) * Log 6 + Num (1#2) * Log 8 - Log 4);
    Num (83143#10000) * (Num (1#2) * Log 2 + Num (1#2) * Log 3 - Log 4 + Num (1#2) * Log 7 + Num (1#2) * Log 8 - Log 4)].
(** sources/rhombohedral.c 1591: macro fillD2GDRDP *)
Definition oRhm_d2gdrdp :=
  [Num (0#1);
    Num (0#1);
    Num (0#1)].
(** sources/rhombohedral.c 768-1594: macro fillD2GDS2 *)
Definition oRhm_d2gds2 :=
  [[Num (83143#40000) * Var 0 * (Num (1#1) / Site 0 + Num (1#1) / Site 3 + Num (1#1) / Site 5 + Num (1#1) / Site 8) - Num (34000#1) - Num (4#1) * (Num (1#1) - Var 2 - Var 3 - Var 4) * Num (-2000#1) + Num (4#1) * Var 3 * Num (-5000#1);
    Num (83143#40000) * Var 0 * (Num (1#1) / Site 3 + Num (1#1) / Site 8) + Num (-40000#1);
    Num (83143#40000) * Var 0 * (Num (1#1) / Site 3 + Num (1#1) / Site 8) + Num (-34000#1)];
    [Num (83143#40000) * Var 0 * (Num (1#1) / Site 3 + Num (1#1) / Site 8) + Num (-40000#1);
    Num (83143#40000) * Var 0 * (Num (1#1) / Site 1 + Num (1#1) / Site 3 + Num (1#1) / Site 6 + Num (1#1) / Site 8) - Num (34000#1) - Num (4#1) * (Num (1#1) - Var 2 - Var 3 - Var 4) * Num (-2000#1) + Num (4#1) * Var 2 * Num (-9000#1) + Num (4#1) * Var 4 * Num (-9000#1);
    Num (83143#40000) * Var 0 * (Num (1#1) / Site 3 + Num (1#1) / Site 8) + Num (-40000#1)];
    [Num (83143#40000) * Var 0 * (Num (1#1) / Site 3 + Num (1#1) / Site 8) + Num (-34000#1);
    Num (83143#40000) * Var 0 * (Num (1#1) / Site 3 + Num (1#1) / Site 8) + Num (-40000#1);
    Num (83143#40000) * Var 0 * (Num (1#1) / Site 2 + Num (1#1) / Site 3 + Num (1#1) / Site 7 + Num (1#1) / Site 8) - Num (34000#1) - Num (4#1) * (Num (1#1) - Var 2 - Var 3 - Var 4) * Num (-2000#1) + Num (4#1) * Var 3 * Num (-5000#1)]].
(** sources/rhombohedral.c 604-1602: macro fillD2GDSDT *)
Definition oRhm_d2gdsdt :=
  [Num (83143#20000) * (Log 0 - Log 3 - Log 5 + Log 8);
    Num (83143#20000) * (Log 1 - Log 3 - Log 6 + Log 8);
    Num (83143#20000) * (Log 2 - Log 3 - Log 7 + Log 8)].
(** sources/rhombohedral.c 607-1605: macro fillD2GDSDP *)
Definition oRhm_d2gdsdp :=
  [Num (0#1);
    Num (0#1);
    Num (0#1)].
(** sources/rhombohedral.c 1608: macro fillD3GDR3 *)
Definition oRhm_d3gdr3 :=
  [[[Num (-83143#80000) * Var 0 * (Num (1#1) / (Site 0 * Site 0) + Num (1#1) / (Site 3 * Site 3) - Num (8#1) / (Site 4 * Site 4) + Num (1#1) / (Site 5 * Site 5) + Num (1#1) / (Site 8 * Site 8) - Num (8#1) / (Site 4 * Site 4));
    Num (-83143#80000) * Var 0 * (Num (1#1) / (Site 3 * Site 3) - Num (8#1) / (Site 4 * Site 4) + Num (1#1) / (Site 8 * Site 8) - Num (8#1) / (Site 4 * Site 4));
    Num (-83143#80000) * Var 0 * (Num (1#1) / (Site 3 * Site 3) - Num (8#1) / (Site 4 * Site 4) + Num (1#1) / (Site 8 * Site 8) - Num (8#1) / (Site 4 * Site 4))];
    [Num (-83143#80000) * Var 0 * (Num (1#1) / (Site 3 * Site 3) - Num (8#1) / (Site 4 * Site 4) + Num (1#1) / (Site 8 * Site 8) - Num (8#1) / (Site 4 * Site 4));
    Num (-83143#80000) * Var 0 * (Num (1#1) / (Site 3 * Site 3) - Num (8#1) / (Site 4 * Site 4) + Num (1#1) / (Site 8 * Site 8) - Num (8#1) / (Site 4 * Site 4));
    Num (-83143#80000) * Var 0 * (Num (1#1) / (Site 3 * Site 3) - Num (8#1) / (Site 4 * Site 4) + Num (1#1) / (Site 8 * Site 8) - Num (8#1) / (Site 4 * Site 4))];
    [Num (-83143#80000) * Var 0 * (Num (1#1) / (Site 3 * Site 3) - Num (8#1) / (Site 4 * Site 4) + Num (1#1) / (Site 8 * Site 8) - Num (8#1) / (Site 4 * Site 4));
    Num (-83143#80000) * Var 0 * (Num (1#1) / (Site 3 * Site 3) - Num (8#1) / (Site 4 * Site 4) + Num (1#1) / (Site 8 * Site 8) - Num (8#1) / (Site 4 * Site 4));
    Num (-83143#80000) * Var 0 * (Num (1#1) / (Site 3 * Site 3) - Num (8#1) / (Site 4 * Site 4) + Num (1#1) / (Site 8 * Site 8) - Num (8#1) / (Site 4 * Site 4))]];
    [[Num (-83143#80000) * Var 0 * (Num (1#1) / (Site 3 * Site 3) - Num (8#1) / (Site 4 * Site 4) + Num (1#1) / (Site 8 * Site 8) - Num (8#1) / (Site 4 * Site 4));
    Num (-83143#80000) * Var 0 * (Num (1#1) / (Site 3 * Site 3) - Num (8#1) / (Site 4 * Site 4) + Num (1#1) / (Site 8 * Site 8) - Num (8#1) / (Site 4 * Site 4));
    Num (-83143#80000) * Var 0 * (Num (1#1) / (Site 3 * Site 3) - Num (8#1) / (Site 4 * Site 4) + Num (1#1) / (Site 8 * Site 8) - Num (8#1) / (Site 4 * Site 4))];
    [Num (-83143#80000) * Var 0 * (Num (1#1) / (Site 3 * Site 3) - Num (8#1) / (Site 4 * Site 4) + Num (1#1) / (Site 8 * Site 8) - Num (8#1) / (Site 4 * Site 4));
    Num (-83143#80000) * Var 0 * (Num (1#1) / (Site 1 * Site 1) + Num (1#1) / (Site 3 * Site 3) - Num (8#1) / (Site 4 * Site 4) + Num (1#1) / (Site 6 * Site 6) + Num (1#1) / (Site 8 * Site 8) - Num (8#1) / (Site 4 * Site 4));
    Num (-83143#80000) * Var 0 * (Num (1#1) / (Site 3 * Site 3) - Num (8#1) / (Site 4 * Site 4) + Num (1#1) / (Site 8 * Site 8) - Num (8#1) / (Site 4 * Site 4))];
    [Num (-83143#80000) * Var 0 * (Num (1#1) / (Site 3 * Site 3) - Num (8#1) / (Site 4 * Site 4) + Num (1#1) / (Site 8 * Site 8) - Num (8#1) / (Site 4 * Site 4));
    Num (-83143#80000) * Var 0 * (Num (1#1) / (Site 3 * Site 3) - Num (8#1) / (Site 4 * Site 4) + Num (1#1) / (Site 8 * Site 8) - Num (8#1) / (Site 4 * Site 4));
    Num (-83143#80000) * Var 0 * (Num (1#1) / (Site 3 * Site 3) - Num (8#1) / (Site 4 * Site 4) + Num (1#1) / (Site 8 * Site 8) - Num (8#1) / (Site 4 * Site 4))]];
    [[Num (-83143#80000) * Var 0 * (Num (1#1) / (Site 3 * Site 3) - Num (8#1) / (Site 4 * Site 4) + Num (1#1) / (Site 8 * Site 8) - Num (8#1) / (Site 4 * Site 4));
    Num (-83143#80000) * Var 0 * (Num (1#1) / (Site 3 * Site 3) - Num (8#1) / (Site 4 * Site 4) + Num (1#1) / (Site 8 * Site 8) - Num (8#1) / (Site 4 * Site 4));
    Num (-83143#80000) * Var 0 * (Num (1#1) / (Site 3 * Site 3) - Num (8#1) / (Site 4 * Site 4) + Num (1#1) / (Site 8 * Site 8) - Num (8#1) / (Site 4 * Site 4))];
    [Num (-83143#80000) * Var 0 * (Num (1#1) / (Site 3 * Site 3) - Num (8#1) / (Site 4 * Site 4) + Num (1#1) / (Site 8 * Site 8) - Num (8#1) / (Site 4 * Site 4));
    Num (-83143#80000) * Var 0 * (Num (1#1) / (Site 3 * Site 3) - Num (8#1) / (Site 4 * Site 4) + Num (1#1) / (Site 8 * Site 8) - Num (8#1) / (Site 4 * Site 4));
    Num (-83143#80000) * Var 0 * (Num (1#1) / (Site 3 * Site 3) - Num (8#1) / (Site 4 * Site 4) + Num (1#1) / (Site 8 * Site 8) - Num (8#1) / (Site 4 * Site 4))];
    [Num (-83143#80000) * Var 0 * (Num (1#1) / (Site 3 * Site 3) - Num (8#1) / (Site 4 * Site 4) + Num (1#1) / (Site 8 * Site 8) - Num (8#1) / (Site 4 * Site 4));
    Num (-83143#80000) * Var 0 * (Num (1#1) / (Site 3 * Site 3) - Num (8#1) / (Site 4 * Site 4) + Num (1#1) / (Site 8 * Site 8) - Num (8#1) / (Site 4 * Site 4));
    Num (-83143#80000) * Var 0 * (Num (1#1) / (Site 2 * Site 2) + Num (1#1) / (Site 3 * Site 3) - Num (8#1) / (Site 4 * Site 4) + Num (1#1) / (Site 7 * Site 7) + Num (1#1) / (Site 8 * Site 8) - Num (8#1) / (Site 4 * Site 4))]]].
(** sources/rhombohedral.c 1624: macro fillD3GDR2DS *)
Definition oRhm_d3gdr2ds :=
  [[[Num (-83143#80000) * Var 0 * (Num (1#1) / (Site 0 * Site 0) - Num (1#1) / (Site 3 * Site 3) - Num (1#1) / (Site 5 * Site 5) + Num (1#1) / (Site 8 * Site 8));
    Num (-83143#80000) * Var 0 * (Num (-1#1) / (Site 3 * Site 3) + Num (1#1) / (Site 8 * Site 8));
    Num (-83143#80000) * Var 0 * (Num (-1#1) / (Site 3 * Site 3) + Num (1#1) / (Site 8 * Site 8))];
    [Num (-83143#80000) * Var 0 * (Num (-1#1) / (Site 3 * Site 3) + Num (1#1) / (Site 8 * Site 8));
    Num (-83143#80000) * Var 0 * (Num (-1#1) / (Site 3 * Site 3) + Num (1#1) / (Site 8 * Site 8));
    Num (-83143#80000) * Var 0 * (Num (-1#1) / (Site 3 * Site 3) + Num (1#1) / (Site 8 * Site 8))];
    [Num (-83143#80000) * Var 0 * (Num (-1#1) / (Site 3 * Site 3) + Num (1#1) / (Site 8 * Site 8));
    Num (-83143#80000) * Var 0 * (Num (-1#1) / (Site 3 * Site 3) + Num (1#1) / (Site 8 * Site 8));
    Num (-83143#80000) * Var 0 * (Num (-1#1) / (Site 3 * Site 3) + Num (1#1) / (Site 8 * Site 8))]];
    [[Num (-83143#80000) * Var 0 * (Num (-1#1) / (Site 3 * Site 3) + Num (1#1) / (Site 8 * Site 8));
    Num (-83143#80000) * Var 0 * (Num (-1#1) / (Site 3 * Site 3) + Num (1#1) / (Site 8 * Site 8));
    Num (-83143#80000) * Var 0 * (Num (-1#1) / (Site 3 * Site 3) + Num (1#1) / (Site 8 * Site 8))];
    [Num (-83143#80000) * Var 0 * (Num (-1#1) / (Site 3 * Site 3) + Num (1#1) / (Site 8 * Site 8));
    Num (-83143#80000) * Var 0 * (Num (1#1) / (Site 1 * Site 1) - Num (1#1) / (Site 3 * Site 3) - Num (1#1) / (Site 6 * Site 6) + Num (1#1) / (Site 8 * Site 8));
    Num (-83143#80000) * Var 0 * (Num (-1#1) / (Site 3 * Site 3) + Num (1#1) / (Site 8 * Site 8))];
    [Num (-83143#80000) * Var 0 * (Num (-1#1) / (Site 3 * Site 3) + Num (1#1) / (Site 8 * Site 8));
    Num (-83143#80000) * Var 0 * (Num (-1#1) / (Site 3 * Site 3) + Num (1#1) / (Site 8 * Site 8));
    Num (-83143#80000) * Var 0 * (Num (-1#1) / (Site 3 * Site 3) + Num (1#1) / (Site 8 * Site 8))]];
    [[Num (-83143#80000) * Var 0 * (Num (-1#1) / (Site 3 * Site 3) + Num (1#1) / (Site 8 * Site 8));
    Num (-83143#80000) * Var 0 * (Num (-1#1) / (Site 3 * Site 3) + Num (1#1) / (Site 8 * Site 8));
    Num (-83143#80000) * Var 0 * (Num (-1#1) / (Site 3 * Site 3) + Num (1#1) / (Site 8 * Site 8))];
    [Num (-83143#80000) * Var 0 * (Num (-1#1) / (Site 3 * Site 3) + Num (1#1) / (Site 8 * Site 8));
    Num (-83143#80000) * Var 0 * (Num (-1#1) / (Site 3 * Site 3) + Num (1#1) / (Site 8 * Site 8));
    Num (-83143#80000) * Var 0 * (Num (-1#1) / (Site 3 * Site 3) + Num (1#1) / (Site 8 * Site 8))];
    [Num (-83143#80000) * Var 0 * (Num (-1#1) / (Site 3 * Site 3) + Num (1#1) / (Site 8 * Site 8));
    Num (-83143#80000) * Var 0 * (Num (-1#1) / (Site 3 * Site 3) + Num (1#1) / (Site 8 * Site 8));
    Num (-83143#80000) * Var 0 * (Num (1#1) / (Site 2 * Site 2) - Num (1#1) / (Site 3 * Site 3) - Num (1#1) / (Site 7 * Site 7) + Num (1#1) / (Site 8 * Site 8))]]].
(** sources/rhombohedral.c 1644: macro fillD3GDR2DT *)
Definition oRhm_d3gdr2dt :=
  [[Num (83143#10000) * (Num (1#4) / Site 0 + Num (1#4) / Site 3 + Num (1#1) / Site 4 + Num (1#4) / Site 5 + Num (1#4) / Site 8 + Num (1#1) / Site 4);
    Num (83143#10000) * (Num (1#4) / Site 3 + Num (1#1) / Site 4 + Num (1#4) / Site 8 + Num (1#1) / Site 4);
    Num (83143#10000) * (Num (1#4) / Site 3 + Num (1#1) / Site 4 + Num (1#4) / Site 8 + Num (1#1) / Site 4)];
    [Num (83143#10000) * (Num (1#4) / Site 3 + Num (1#1) / Site 4 + Num (1#4) / Site 8 + Num (1#1) / Site 4);
    Num (83143#10000) * (Num (1#4) / Site 1 + Num (1#4) / Site 3 + Num (1#1) / Site 4 + Num (1#4) / Site 6 + Num (1#4) / Site 8 + Num (1#1) / Site 4);
    Num (83143#10000) * (Num (1#4) / Site 3 + Num (1#1) / Site 4 + Num (1#4) / Site 8 + Num (1#1) / Site 4)];
    [Num (83143#10000) * (Num (1#4) / Site 3 + Num (1#1) / Site 4 + Num (1#4) / Site 8 + Num (1#1) / Site 4);
    Num (83143#10000) * (Num (1#4) / Site 3 + Num (1#1) / Site 4 + Num (1#4) / Site 8 + Num (1#1) / Site 4);
    Num (83143#10000) * (Num (1#4) / Site 2 + Num (1#4) / Site 3 + Num (1#1) / Site 4 + Num (1#4) / Site 7 + Num (1#4) / Site 8 + Num (1#1) / Site 4)]].
(** sources/rhombohedral.c 1652: macro fillD3GDR2DP *)
Definition oRhm_d3gdr2dp :=
  [[Num (0#1);
    Num (0#1);
    Num (0#1)];
    [Num (0#1);
    Num (0#1);
    Num (0#1)];
    [Num (0#1);
    Num (0#1);
    Num (0#1)]].
(** sources/rhombohedral.c 1660: macro fillD3GDRDS2 *)
Definition oRhm_d3gdrds2 :=
  [[[Num (-83143#80000) * Var 0 * (Num (1#1) / (Site 0 * Site 0) + Num (1#1) / (Site 3 * Site 3) + Num (1#1) / (Site 5 * Site 5) + Num (1#1) / (Site 8 * Site 8)) + Num (-8000#1);
    Num (-83143#80000) * Var 0 * (Num (1#1) / (Site 3 * Site 3) + Num (1#1) / (Site 8 * Site 8));
    Num (-83143#80000) * Var 0 * (Num (1#1) / (Site 3 * Site 3) + Num (1#1) / (Site 8 * Site 8))];
    [Num (-83143#80000) * Var 0 * (Num (1#1) / (Site 3 * Site 3) + Num (1#1) / (Site 8 * Site 8));
    Num (-83143#80000) * Var 0 * (Num (1#1) / (Site 3 * Site 3) + Num (1#1) / (Site 8 * Site 8)) + Num (-8000#1) + Num (-36000#1);
    Num (-83143#80000) * Var 0 * (Num (1#1) / (Site 3 * Site 3) + Num (1#1) / (Site 8 * Site 8))];
    [Num (-83143#80000) * Var 0 * (Num (1#1) / (Site 3 * Site 3) + Num (1#1) / (Site 8 * Site 8));
    Num (-83143#80000) * Var 0 * (Num (1#1) / (Site 3 * Site 3) + Num (1#1) / (Site 8 * Site 8));
    Num (-83143#80000) * Var 0 * (Num (1#1) / (Site 3 * Site 3) + Num (1#1) / (Site 8 * Site 8)) + Num (-8000#1)]];
    [[Num (-83143#80000) * Var 0 * (Num (1#1) / (Site 3 * Site 3) + Num (1#1) / (Site 8 * Site 8)) + Num (-8000#1) + Num (-20000#1);
    Num (-83143#80000) * Var 0 * (Num (1#1) / (Site 3 * Site 3) + Num (1#1) / (Site 8 * Site 8));
    Num (-83143#80000) * Var 0 * (Num (1#1) / (Site 3 * Site 3) + Num (1#1) / (Site 8 * Site 8))];
    [Num (-83143#80000) * Var 0 * (Num (1#1) / (Site 3 * Site 3) + Num (1#1) / (Site 8 * Site 8));
    Num (-83143#80000) * Var 0 * (Num (1#1) / (Site 1 * Site 1) + Num (1#1) / (Site 3 * Site 3) + Num (1#1) / (Site 6 * Site 6) + Num (1#1) / (Site 8 * Site 8)) + Num (-8000#1);
    Num (-83143#80000) * Var 0 * (Num (1#1) / (Site 3 * Site 3) + Num (1#1) / (Site 8 * Site 8))];
    [Num (-83143#80000) * Var 0 * (Num (1#1) / (Site 3 * Site 3) + Num (1#1) / (Site 8 * Site 8));
    Num (-83143#80000) * Var 0 * (Num (1#1) / (Site 3 * Site 3) + Num (1#1) / (Site 8 * Site 8));
    Num (-83143#80000) * Var 0 * (Num (1#1) / (Site 3 * Site 3) + Num (1#1) / (Site 8 * Site 8)) + Num (-8000#1) + Num (-20000#1)]];
    [[Num (-83143#80000) * Var 0 * (Num (1#1) / (Site 3 * Site 3) + Num (1#1) / (Site 8 * Site 8)) + Num (-8000#1);
    Num (-83143#80000) * Var 0 * (Num (1#1) / (Site 3 * Site 3) + Num (1#1) / (Site 8 * Site 8));
    Num (-83143#80000) * Var 0 * (Num (1#1) / (Site 3 * Site 3) + Num (1#1) / (Site 8 * Site 8))];
    [Num (-83143#80000) * Var 0 * (Num (1#1) / (Site 3 * Site 3) + Num (1#1) / (Site 8 * Site 8));
    Num (-83143#80000) * Var 0 * (Num (1#1) / (Site 3 * Site 3) + Num (1#1) / (Site 8 * Site 8)) + Num (-8000#1) + Num (-36000#1);
    Num (-83143#80000) * Var 0 * (Num (1#1) / (Site 3 * Site 3) + Num (1#1) / (Site 8 * Site 8))];
    [Num (-83143#80000) * Var 0 * (Num (1#1) / (Site 3 * Site 3) + Num (1#1) / (Site 8 * Site 8));
    Num (-83143#80000) * Var 0 * (Num (1#1) / (Site 3 * Site 3) + Num (1#1) / (Site 8 * Site 8));
    Num (-83143#80000) * Var 0 * (Num (1#1) / (Site 2 * Site 2) + Num (1#1) / (Site 3 * Site 3) + Num (1#1) / (Site 7 * Site 7) + Num (1#1) / (Site 8 * Site 8)) + Num (-8000#1)]]].
(** sources/rhombohedral.c 1680: macro fillD3GDRDSDT *)
Definition oRhm_d3gdrdsdt :=
  [[Num (83143#40000) * (Num (1#1) / Site 0 - Num (1#1) / Site 3 - Num (1#1) / Site 5 + Num (1#1) / Site 8);
    Num (83143#40000) * (Num (-1#1) / Site 3 + Num (1#1) / Site 8);
    Num (83143#40000) * (Num (-1#1) / Site 3 + Num (1#1) / Site 8)];
    [Num (83143#40000) * (Num (-1#1) / Site 3 + Num (1#1) / Site 8);
    Num (83143#40000) * (Num (1#1) / Site 1 - Num (1#1) / Site 3 - Num (1#1) / Site 6 + Num (1#1) / Site 8);
    Num (83143#40000) * (Num (-1#1) / Site 3 + Num (1#1) / Site 8)];
    [Num (83143#40000) * (Num (-1#1) / Site 3 + Num (1#1) / Site 8);
    Num (83143#40000) * (Num (-1#1) / Site 3 + Num (1#1) / Site 8);
    Num (83143#40000) * (Num (1#1) / Site 2 - Num (1#1) / Site 3 - Num (1#1) / Site 7 + Num (1#1) / Site 8)]].
(** sources/rhombohedral.c 1688: macro fillD3GDRDSDP *)
Definition oRhm_d3gdrdsdp :=
  [[Num (0#1);
    Num (0#1);
    Num (0#1)];
    [Num (0#1);
    Num (0#1);
    Num (0#1)];
    [Num (0#1);
    Num (0#1);
    Num (0#1)]].
(** sources/rhombohedral.c 610-1696: macro fillD3GDS3 *)
Definition oRhm_d3gds3 :=
  [[[Num (-83143#80000) * Var 0 * (Num (1#1) / (Site 0 * Site 0) - Num (1#1) / (Site 3 * Site 3) - Num (1#1) / (Site 5 * Site 5) + Num (1#1) / (Site 8 * Site 8));
    Num (-83143#80000) * Var 0 * (Num (-1#1) / (Site 3 * Site 3) + Num (1#1) / (Site 8 * Site 8));
    Num (-83143#80000) * Var 0 * (Num (-1#1) / (Site 3 * Site 3) + Num (1#1) / (Site 8 * Site 8))];
    [Num (-83143#80000) * Var 0 * (Num (-1#1) / (Site 3 * Site 3) + Num (1#1) / (Site 8 * Site 8));
    Num (-83143#80000) * Var 0 * (Num (-1#1) / (Site 3 * Site 3) + Num (1#1) / (Site 8 * Site 8));
    Num (-83143#80000) * Var 0 * (Num (-1#1) / (Site 3 * Site 3) + Num (1#1) / (Site 8 * Site 8))];
    [Num (-83143#80000) * Var 0 * (Num (-1#1) / (Site 3 * Site 3) + Num (1#1) / (Site 8 * Site 8));
    Num (-83143#80000) * Var 0 * (Num (-1#1) / (Site 3 * Site 3) + Num (1#1) / (Site 8 * Site 8));
    Num (-83143#80000) * Var 0 * (Num (-1#1) / (Site 3 * Site 3) + Num (1#1) / (Site 8 * Site 8))]];
    [[Num (-83143#80000) * Var 0 * (Num (-1#1) / (Site 3 * Site 3) + Num (1#1) / (Site 8 * Site 8));
    Num (-83143#80000) * Var 0 * (Num (-1#1) / (Site 3 * Site 3) + Num (1#1) / (Site 8 * Site 8));
    Num (-83143#80000) * Var 0 * (Num (-1#1) / (Site 3 * Site 3) + Num (1#1) / (Site 8 * Site 8))];
    [Num (-83143#80000) * Var 0 * (Num (-1#1) / (Site 3 * Site 3) + Num (1#1) / (Site 8 * Site 8));
    Num (-83143#80000) * Var 0 * (Num (1#1) / (Site 1 * Site 1) - Num (1#1) / (Site 3 * Site 3) - Num (1#1) / (Site 6 * Site 6) + Num (1#1) / (Site 8 * Site 8));
    Num (-83143#80000) * Var 0 * (Num (-1#1) / (Site 3 * Site 3) + Num (1#1) / (Site 8 * Site 8))];
    [Num (-83143#80000) * Var 0 * (Num (-1#1) / (Site 3 * Site 3) + Num (1#1) / (Site 8 * Site 8));
    Num (-83143#80000) * Var 0 * (Num (-1#1) / (Site 3 * Site 3) + Num (1#1) / (Site 8 * Site 8));
    Num (-83143#80000) * Var 0 * (Num (-1#1) / (Site 3 * Site 3) + Num (1#1) / (Site 8 * Site 8))]];
    [[Num (-83143#80000) * Var 0 * (Num (-1#1) / (Site 3 * Site 3) + Num (1#1) / (Site 8 * Site 8));
    Num (-83143#80000) * Var 0 * (Num (-1#1) / (Site 3 * Site 3) + Num (1#1) / (Site 8 * Site 8));
    Num (-83143#80000) * Var 0 * (Num (-1#1) / (Site 3 * Site 3) + Num (1#1) / (Site 8 * Site 8))];
    [Num (-83143#80000) * Var 0 * (Num (-1#1) / (Site 3 * Site 3) + Num (1#1) / (Site 8 * Site 8));
    Num (-83143#80000) * Var 0 * (Num (-1#1) / (Site 3 * Site 3) + Num (1#1) / (Site 8 * Site 8));
    Num (-83143#80000) * Var 0 * (Num (-1#1) / (Site 3 * Site 3) + Num (1#1) / (Site 8 * Site 8))];
    [Num (-83143#80000) * Var 0 * (Num (-1#1) / (Site 3 * Site 3) + Num (1#1) / (Site 8 * Site 8));
    Num (-83143#80000) * Var 0 * (Num (-1#1) / (Site 3 * Site 3) + Num (1#1) / (Site 8 * Site 8));
    Num (-83143#80000) * Var 0 * (Num (1#1) / (Site 2 * Site 2) - Num (1#1) / (Site 3 * Site 3) - Num (1#1) / (Site 7 * Site 7) + Num (1#1) / (Site 8 * Site 8))]]].
(** sources/rhombohedral.c 614-1716: macro fillD3GDS2DT *)
Definition oRhm_d3gds2dt :=
  [[Num (83143#40000) * (Num (1#1) / Site 0 + Num (1#1) / Site 3 + Num (1#1) / Site 5 + Num (1#1) / Site 8);
    Num (83143#40000) * (Num (1#1) / Site 3 + Num (1#1) / Site 8);
    Num (83143#40000) * (Num (1#1) / Site 3 + Num (1#1) / Site 8)];
    [Num (83143#40000) * (Num (1#1) / Site 3 + Num (1#1) / Site 8);
    Num (83143#40000) * (Num (1#1) / Site 1 + Num (1#1) / Site 3 + Num (1#1) / Site 6 + Num (1#1) / Site 8);
    Num (83143#40000) * (Num (1#1) / Site 3 + Num (1#1) / Site 8)];
    [Num (83143#40000) * (Num (1#1) / Site 3 + Num (1#1) / Site 8);
    Num (83143#40000) * (Num (1#1) / Site 3 + Num (1#1) / Site 8);
    Num (83143#40000) * (Num (1#1) / Site 2 + Num (1#1) / Site 3 + Num (1#1) / Site 7 + Num (1#1) / Site 8)]].
(** sources/rhombohedral.c 618-1724: macro fillD3GDS2DP *)
Definition oRhm_d3gds2dp :=
  [[Num (0#1);
    Num (0#1);
    Num (0#1)];
    [Num (0#1);
    Num (0#1);
    Num (0#1)];
    [Num (0#1);
    Num (0#1);
    Num (0#1)]].
(** sources/rhombohedral.c 622-1732: macro fillD3GDSDT2 *)
Definition oRhm_d3gdsdt2 :=
  [Num (0#1);
    Num (0#1);
    Num (0#1)].
(** sources/rhombohedral.c 626-1735: macro fillD3GDSDTDP *)
Definition oRhm_d3gdsdtdp :=
  [Num (0#1);
    Num (0#1);
    Num (0#1)].
(** sources/rhombohedral.c 630-1739: macro fillD3GDSDP2 *)
Definition oRhm_d3gdsdp2 :=
  [Num (0#1);
    Num (0#1);
    Num (0#1)].
(** sources/rhombohedral.c 1742: macro fillD3GDRDT2 *)
Definition oRhm_d3gdrdt2 :=
  [Num (0#1);
    Num (0#1);
    Num (0#1)].
(** sources/rhombohedral.c 1746: macro fillD3GDRDTDP *)
Definition oRhm_d3gdrdtdp :=
  [Num (0#1);
    Num (0#1);
    Num (0#1)].
(** sources/rhombohedral.c 1750: macro fillD3GDRDP2 *)
Definition oRhm_d3gdrdp2 :=
  [Num (0#1);
    Num (0#1);
    Num (0#1)].
(** sources/rhombohedral.c 1403: macro D2GDT2 *)
Definition oRhm_D2GDT2 :=
  Num (0#1).
(** sources/rhombohedral.c 1404: macro D2GDTDP *)
Definition oRhm_D2GDTDP :=
  Num (0#1).
(** sources/rhombohedral.c 1405: macro D2GDP2 *)
Definition oRhm_D2GDP2 :=
  Num (0#1).
(** sources/rhombohedral.c 1556: macro D3GDT3 *)
Definition oRhm_D3GDT3 :=
  Num (0#1).
(** sources/rhombohedral.c 1557: macro D3GDT2DP *)
Definition oRhm_D3GDT2DP :=
  Num (0#1).
(** sources/rhombohedral.c 1558: macro D3GDTDP2 *)
Definition oRhm_D3GDTDP2 :=
  Num (0#1).
(** sources/rhombohedral.c 1559: macro D3GDP3 *)
Definition oRhm_D3GDP3 :=
  Num (0#1).
(** sources/rhombohedral.c 1264: macro ENDMEMBERS *)
Definition oRhm_end :=
  Var 3 * Var 60 + (Num (1#1) - Var 2 - Var 3 - Var 4) * Var 61 + Var 2 * Var 62 + Var 4 * Var 63.
(** sources/rhombohedral.c 1267-1269: macros DENDDRi *)
Definition oRhm_dend :=
  [Var 62 - Var 61;
    Var 60 - Var 61;
    Var 63 - Var 61].
(** sources/rhombohedral.c, order: the site fractions and their clamps *)
Definition oRhm_sites := [mkSite ((Var 2 + Var 40) / Num (2#1)) Low0;
    mkSite ((Var 3 + Var 41) / Num (2#1)) Low0;
    mkSite ((Var 4 + Var 42) / Num (2#1)) Low0;
    mkSite ((Var 2 - Var 40 + Var 3 - Var 41 + Var 4 - Var 42) / Num (2#1)) Low0;
    mkSite (Num (1#1) - Var 2 - Var 3 - Var 4) Low0;
    mkSite ((Var 2 - Var 40) / Num (2#1)) Low0;
    mkSite ((Var 3 - Var 41) / Num (2#1)) Low0;
    mkSite ((Var 4 - Var 42) / Num (2#1)) Low0;
    mkSite ((Var 2 + Var 40 + Var 3 + Var 41 + Var 4 + Var 42) / Num (2#1)) Low0].
Definition oRhm := mkOrd "rhombohedral" 4 3 3 LU false oRhm_sites (Some (oRhm_end, oRhm_dend)) oRhm_g oRhm_s oRhm_v oRhm_r1 oRhm_s1
  oRhm_d2gdr2 oRhm_d2gdrds oRhm_d2gdrdt oRhm_d2gdrdp oRhm_d2gds2 oRhm_d2gdsdt oRhm_d2gdsdp oRhm_d3gdr3 oRhm_d3gdr2ds oRhm_d3gdr2dt oRhm_d3gdr2dp oRhm_d3gdrds2 oRhm_d3gdrdsdt oRhm_d3gdrdsdp oRhm_d3gds3 oRhm_d3gds2dt oRhm_d3gds2dp oRhm_d3gdsdt2 oRhm_d3gdsdtdp oRhm_d3gdsdp2 oRhm_d3gdrdt2 oRhm_d3gdrdtdp oRhm_d3gdrdp2 oRhm_D2GDT2 oRhm_D2GDTDP oRhm_D2GDP2 oRhm_D3GDT3 oRhm_D3GDT2DP oRhm_D3GDTDP2 oRhm_D3GDP3.
(** sources/spinel.c 1595: macro G *)
Definition oSpn_g :=
  Num (-8891#1) * Var 40 + Num (-87864#5) * Var 41 + Num (-391204#5) * Var 3 + Num (166314#5) * Var 42 + Num (-33472#5) * Var 2 * Var 2 + Num (-44978#5) * Var 2 * Var 3 + Num (41317#1) * Var 2 * Var 4 + Num (35564#1) * Var 2 * Var 5 + Num (152716#5) * Var 2 * Var 41 + Num (244764#5) * Var 2 * Var 3 + Num (-44978#5) * Var 2 * Var 42 + Num (-41840#1) * Var 3 * Var 3 + Num (-382836#5) * Var 3 * Var 4 + Num (-83680#1) * Var 3 * Var 5 + Num (-44978#5) * Var 3 * Var 40 + Num (14644#5) * Var 3 * Var 41 + Num (119244#5) * Var 3 * Var 3 + Num (131796#5) * Var 3 * Var 42 + Num (-435136#5) * Var 4 * Var 4 + Num (-518816#5) * Var 4 * Var 5 + Num (6799#5) * Var 4 * Var 40 + Num (-269868#5) * Var 4 * Var 41 + Num (-79496#5) * Var 4 * Var 3 + Num (-119244#5) * Var 4 * Var 42 + Num (-41840#1) * Var 5 * Var 5 + Num (9414#5) * Var 5 * Var 40 + Num (-2092#5) * Var 5 * Var 41 + Num (182004#5) * Var 5 * Var 3 + Num (-35564#5) * Var 5 * Var 42 + Num (-8368#5) * Var 40 * Var 40 + Num (5230#1) * Var 40 * Var 41 + Num (15690#1) * Var 40 * Var 3 + Num (-30334#5) * Var 40 * Var 42 + Num (-18828#1) * Var 41 * Var 41 + Num (-221752#5) * Var 41 * Var 3 + Num (-190372#5) * Var 41 * Var 42 + Num (-29288#1) * Var 3 * Var 3 + Num (-75312#1) * Var 3 * Var 42 - Var 0 * (Num (-83143#10000) * (Site 0 * Log 0 + Site 1 * Log 1 + Site 2 * Log 2 + Site 3 * Log 3 + Num (2#1) * Site 4 * Log 4 + Num (2#1) * Site 5 * Log 5 + Num (2#1) * Site 6 * Log 6 + Num (2#1) * Site 7 * Log 7 + Num (2#1) * Site 8 * Log 8 + Num (2#1) * Site 9 * Log 9)) + Var 4 * Var 5 * (Num (-1#8) * Var 5 + Num (509#5000) * Var 4) * (Var 1 - Num (1#1)).
(** sources/spinel.c 1575: macro S *)
Definition oSpn_s :=
  Num (-83143#10000) * (Site 0 * Log 0 + Site 1 * Log 1 + Site 2 * Log 2 + Site 3 * Log 3 + Num (2#1) * Site 4 * Log 4 + Num (2#1) * Site 5 * Log 5 + Num (2#1) * Site 6 * Log 6 + Num (2#1) * Site 7 * Log 7 + Num (2#1) * Site 8 * Log 8 + Num (2#1) * Site 9 * Log 9).
(** sources/spinel.c 1626: macro DGDP *)
Definition oSpn_v :=
  Var 4 * Var 5 * (Num (-1#8) * Var 5 + Num (509#5000) * Var 4).
(** sources/spinel.c 1599-1612: macros DGDRi *)
Definition oSpn_r1 :=
  [Num (-66944#5) * Var 2 + Num (-44978#5) * Var 3 + Num (41317#1) * Var 4 + Num (35564#1) * Var 5 + Num (152716#5) * Var 41 + Num (244764#5) * Var 3 + Num (-44978#5) * Var 42 + Num (83143#20000) * Var 0 * (Log 0 - Log 1 + (Log 4 - Log 5));
    Num (-44978#5) * Var 2 + Num (-83680#1) * Var 3 + Num (-382836#5) * Var 4 + Num (-83680#1) * Var 5 + Num (-44978#5) * Var 40 + Num (14644#5) * Var 41 + Num (119244#5) * Var 3 + Num (131796#5) * Var 42 + Num (-391204#5) + Num (244764#5) * Var 2 + Num (119244#5) * Var 3 + Num (-79496#5) * Var 4 + Num (182004#5) * Var 5 + Num (15690#1) * Var 40 + Num (-221752#5) * Var 41 + Num (-58576#1) * Var 3 + Num (-75312#1) * Var 42 + Num (83143#10000) * Var 0 * (Log 1 - Log 2 + Num (2#1) * Log 8 - Log 5 - Log 6);
    Num (41317#1) * Var 2 + Num (-382836#5) * Var 3 + Num (-870272#5) * Var 4 + Num (-518816#5) * Var 5 + Num (6799#5) * Var 40 + Num (-269868#5) * Var 41 + Num (-79496#5) * Var 3 + Num (-119244#5) * Var 42 + Num (83143#10000) * Var 0 * (Log 1 - Log 2 + (Log 9 - Log 6)) + Var 5 * (Num (-1#8) * Var 5 + Num (509#5000) * Var 4) * (Var 1 - Num (1#1)) + Var 4 * Var 5 * Num (509#5000) * (Var 1 - Num (1#1));
    Num (35564#1) * Var 2 + Num (-83680#1) * Var 3 + Num (-518816#5) * Var 4 + Num (-83680#1) * Var 5 + Num (9414#5) * Var 40 + Num (-2092#5) * Var 41 + Num (182004#5) * Var 3 + Num (-35564#5) * Var 42 + Num (83143#10000) * Var 0 * (Log 3 - Log 2 + (Log 7 - Log 6)) + Var 4 * (Num (-1#8) * Var 5 + Num (509#5000) * Var 4) * (Var 1 - Num (1#1)) + Var 4 * Var 5 * Num (-1#8) * (Var 1 - Num (1#1))].
(** sources/spinel.c 1616-1622: macros DGDSi *)
Definition oSpn_s1 :=
  [Num (-8891#1) + Num (-44978#5) * Var 3 + Num (6799#5) * Var 4 + Num (9414#5) * Var 5 + Num (-16736#5) * Var 40 + Num (5230#1) * Var 41 + Num (15690#1) * Var 3 + Num (-30334#5) * Var 42 + Num (83143#20000) * Var 0 * (Log 0 - Log 1 + (Log 5 - Log 4));
    Num (-87864#5) + Num (152716#5) * Var 2 + Num (14644#5) * Var 3 + Num (-269868#5) * Var 4 + Num (-2092#5) * Var 5 + Num (5230#1) * Var 40 + Num (-37656#1) * Var 41 + Num (-221752#5) * Var 3 + Num (-190372#5) * Var 42 + Num (83143#10000) * Var 0 * (Log 1 - Log 2 + (Log 6 - Log 5));
    Num (166314#5) + Num (-44978#5) * Var 2 + Num (131796#5) * Var 3 + Num (-119244#5) * Var 4 + Num (-35564#5) * Var 5 + Num (-30334#5) * Var 40 + Num (-190372#5) * Var 41 + Num (-75312#1) * Var 3 + Num (83143#10000) * Var 0 * (Log 1 - Log 3 + (Log 7 - Log 5))].
(** sources/spinel.c 1916: macro fillD2GDR2 *)
Definition oSpn_d2gdr2 :=
  [[Num (-66944#5) + Num (83143#40000) * Var 0 * (Num (1#1) / Site 0 + Num (1#1) / Site 1 + Num (1#2) / Site 4 + Num (1#2) / Site 5);
    Num (199786#5) + Num (83143#20000) * Var 0 * (Num (-1#1) / Site 1 + Num (1#2) / Site 5);
    Num (41317#1) + Num (83143#20000) * Var 0 * (Num (-1#1) / Site 1);
    Num (35564#1)];
    [Num (199786#5) + Num (83143#20000) * Var 0 * (Num (-1#1) / Site 1 + Num (1#2) / Site 5);
    Num (-472792#5) + Num (83143#10000) * Var 0 * (Num (1#1) / Site 1 + Num (1#1) / Site 2 + Num (2#1) / Site 8 + Num (1#2) / Site 5 + Num (1#2) / Site 6);
    Num (-462332#5) + Num (83143#10000) * Var 0 * (Num (1#1) / Site 1 + Num (1#1) / Site 2 + Num (1#2) / Site 6);
    Num (-236396#5) + Num (83143#10000) * Var 0 * (Num (1#1) / Site 2 + Num (1#2) / Site 6)];
    [Num (41317#1) + Num (83143#20000) * Var 0 * (Num (-1#1) / Site 1);
    Num (-462332#5) + Num (83143#10000) * Var 0 * (Num (1#1) / Site 1 + Num (1#1) / Site 2 + Num (1#2) / Site 6);
    Num (-870272#5) + Num (83143#10000) * Var 0 * (Num (1#1) / Site 1 + Num (1#1) / Site 2 + Num (1#2) / Site 9 + Num (1#2) / Site 6) + Num (2#1) * Var 5 * Num (509#5000) * (Var 1 - Num (1#1));
    Num (-518816#5) + Num (83143#10000) * Var 0 * (Num (1#1) / Site 2 + Num (1#2) / Site 6) + (Num (-1#8) * Var 5 + Num (509#5000) * Var 4) * (Var 1 - Num (1#1)) + Var 5 * Num (-1#8) * (Var 1 - Num (1#1)) + Var 4 * Num (509#5000) * (Var 1 - Num (1#1))];
    [Num (35564#1);
    Num (-236396#5) + Num (83143#10000) * Var 0 * (Num (1#1) / Site 2 + Num (1#2) / Site 6);
    Num (-518816#5) + Num (83143#10000) * Var 0 * (Num (1#1) / Site 2 + Num (1#2) / Site 6) + (Num (-1#8) * Var 5 + Num (509#5000) * Var 4) * (Var 1 - Num (1#1)) + Var 5 * Num (-1#8) * (Var 1 - Num (1#1)) + Var 4 * Num (509#5000) * (Var 1 - Num (1#1));
    Num (-83680#1) + Num (83143#10000) * Var 0 * (Num (1#1) / Site 3 + Num (1#1) / Site 2 + Num (1#2) / Site 7 + Num (1#2) / Site 6) + Num (2#1) * Var 4 * Num (-1#8) * (Var 1 - Num (1#1))]].
(** sources/spinel.c 1926: macro fillD2GDRDS *)
Definition oSpn_d2gdrds :=
  [[Num (83143#40000) * Var 0 * (Num (1#1) / Site 0 + Num (1#1) / Site 1 - Num (1#2) / Site 4 - Num (1#2) / Site 5);
    Num (152716#5) + Num (83143#20000) * Var 0 * (Num (-1#1) / Site 1 + Num (1#2) / Site 5);
    Num (-44978#5) + Num (83143#20000) * Var 0 * (Num (-1#1) / Site 1 + Num (1#2) / Site 5)];
    [Num (33472#5) + Num (83143#10000) * Var 0 * (Num (-1#2) / Site 1 - Num (1#4) / Site 5);
    Num (-207108#5) + Num (83143#10000) * Var 0 * (Num (1#1) / Site 1 + Num (1#1) / Site 2 + Num (1#2) / Site 5 - Num (1#2) / Site 6);
    Num (-244764#5) + Num (83143#10000) * Var 0 * (Num (1#1) / Site 1 + Num (1#2) / Site 5)];
    [Num (6799#5) + Num (83143#10000) * Var 0 * (Num (-1#2) / Site 1);
    Num (-269868#5) + Num (83143#10000) * Var 0 * (Num (1#1) / Site 1 + Num (1#1) / Site 2 - Num (1#2) / Site 6);
    Num (-119244#5) + Num (83143#10000) * Var 0 * (Num (1#1) / Site 1)];
    [Num (9414#5);
    Num (-2092#5) + Num (83143#10000) * Var 0 * (Num (1#1) / Site 2 - Num (1#2) / Site 6);
    Num (-35564#5) + Num (83143#10000) * Var 0 * (Num (-1#1) / Site 3 + Num (1#2) / Site 7)]].
(** sources/spinel.c 1932: macro fillD2GDRDT *)
Definition oSpn_d2gdrdt :=
  [Num (83143#20000) * (Log 0 - Log 1 + Log 4 - Log 5);
    Num (83143#10000) * (Log 1 - Log 2 + Num (2#1) * Log 8 - Log 5 + (- Log 6));
    Num (83143#10000) * (Log 1 - Log 2 + (Log 9 - Log 6));
    Num (83143#10000) * (Log 3 - Log 2 + (Log 7 - Log 6))].
(** sources/spinel.c 1936: macro fillD2GDRDP *)
Definition oSpn_d2gdrdp :=
  [Num (0#1);
    Num (0#1);
    Var 5 * (Num (-1#8) * Var 5 + Num (509#5000) * Var 4) + Var 4 * Var 5 * Num (509#5000);
    Var 4 * (Num (-1#8) * Var 5 + Num (509#5000) * Var 4) + Var 4 * Var 5 * Num (-1#8)].
(** sources/spinel.c 1022-1940: macro fillD2GDS2 *)
Definition oSpn_d2gds2 :=
  [[Num (-16736#5) + Num (83143#40000) * Var 0 * (Num (1#1) / Site 0 + Num (1#1) / Site 1 + Num (1#2) / Site 5 + Num (1#2) / Site 4);
    Num (5230#1) + Num (83143#20000) * Var 0 * (Num (-1#1) / Site 1 - Num (1#2) / Site 5);
    Num (-30334#5) + Num (83143#20000) * Var 0 * (Num (-1#1) / Site 1 - Num (1#2) / Site 5)];
    [Num (5230#1) + Num (83143#20000) * Var 0 * (Num (-1#1) / Site 1 - Num (1#2) / Site 5);
    Num (-37656#1) + Num (83143#10000) * Var 0 * (Num (1#1) / Site 1 + Num (1#1) / Site 2 + Num (1#2) / Site 6 + Num (1#2) / Site 5);
    Num (-190372#5) + Num (83143#10000) * Var 0 * (Num (1#1) / Site 1 + Num (1#2) / Site 5)];
    [Num (-30334#5) + Num (83143#20000) * Var 0 * (Num (-1#1) / Site 1 - Num (1#2) / Site 5);
    Num (-190372#5) + Num (83143#10000) * Var 0 * (Num (1#1) / Site 1 + Num (1#2) / Site 5);
    Num (83143#10000) * Var 0 * (Num (1#1) / Site 1 + Num (1#1) / Site 3 + Num (1#2) / Site 7 + Num (1#2) / Site 5)]].
(** sources/spinel.c 850-1948: macro fillD2GDSDT *)
Definition oSpn_d2gdsdt :=
  [Num (83143#20000) * (Log 0 - Log 1 + (Log 5 - Log 4));
    Num (83143#10000) * (Log 1 - Log 2 + (Log 6 - Log 5));
    Num (83143#10000) * (Log 1 - Log 3 + (Log 7 - Log 5))].
(** sources/spinel.c 853-1951: macro fillD2GDSDP *)
Definition oSpn_d2gdsdp :=
  [Num (0#1);
    Num (0#1);
    Num (0#1)].
(** sources/spinel.c 1954: macro fillD3GDR3 *)
Definition oSpn_d3gdr3 :=
  [[[Num (-83143#80000) * Var 0 * (Num (1#1) / (Site 0 * Site 0) - Num (1#1) / (Site 1 * Site 1) + Num (1#4) / (Site 4 * Site 4) - Num (1#4) / (Site 5 * Site 5));
    Num (-83143#40000) * Var 0 * (Num (1#1) / (Site 1 * Site 1) - Num (1#4) / (Site 5 * Site 5));
    Num (-83143#40000) * Var 0 * (Num (1#1) / (Site 1 * Site 1));
    Num (0#1)];
    [Num (-83143#40000) * Var 0 * (Num (1#1) / (Site 1 * Site 1) - Num (1#4) / (Site 5 * Site 5));
    Num (83143#20000) * Var 0 * (Num (1#1) / (Site 1 * Site 1) + Num (1#4) / (Site 5 * Site 5));
    Num (83143#20000) * Var 0 * (Num (1#1) / (Site 1 * Site 1));
    Num (0#1)];
    [Num (-83143#40000) * Var 0 * (Num (1#1) / (Site 1 * Site 1));
    Num (83143#20000) * Var 0 * (Num (1#1) / (Site 1 * Site 1));
    Num (83143#20000) * Var 0 * (Num (1#1) / (Site 1 * Site 1));
    Num (0#1)];
    [Num (0#1);
    Num (0#1);
    Num (0#1);
    Num (0#1)]];
    [[Num (-83143#40000) * Var 0 * (Num (1#1) / (Site 1 * Site 1) - Num (1#4) / (Site 5 * Site 5));
    Num (83143#20000) * Var 0 * (Num (1#1) / (Site 1 * Site 1) + Num (1#4) / (Site 5 * Site 5));
    Num (83143#20000) * Var 0 * (Num (1#1) / (Site 1 * Site 1));
    Num (0#1)];
    [Num (83143#20000) * Var 0 * (Num (1#1) / (Site 1 * Site 1) + Num (1#4) / (Site 5 * Site 5));
    Num (83143#10000) * Var 0 * (Num (-1#1) / (Site 1 * Site 1) + Num (1#1) / (Site 2 * Site 2) - Num (2#1) / (Site 8 * Site 8) + Num (1#4) / (Site 5 * Site 5) + Num (1#4) / (Site 6 * Site 6));
    Num (83143#10000) * Var 0 * (Num (-1#1) / (Site 1 * Site 1) + Num (1#1) / (Site 2 * Site 2) + Num (1#4) / (Site 6 * Site 6));
    Num (83143#10000) * Var 0 * (Num (1#1) / (Site 2 * Site 2) + Num (1#4) / (Site 6 * Site 6))];
    [Num (83143#20000) * Var 0 * (Num (1#1) / (Site 1 * Site 1));
    Num (83143#10000) * Var 0 * (Num (-1#1) / (Site 1 * Site 1) + Num (1#1) / (Site 2 * Site 2) + Num (1#4) / (Site 6 * Site 6));
    Num (83143#10000) * Var 0 * (Num (-1#1) / (Site 1 * Site 1) + Num (1#1) / (Site 2 * Site 2) + Num (1#4) / (Site 6 * Site 6));
    Num (83143#10000) * Var 0 * (Num (1#1) / (Site 2 * Site 2) + Num (1#4) / (Site 6 * Site 6))];
    [Num (0#1);
    Num (83143#10000) * Var 0 * (Num (1#1) / (Site 2 * Site 2) + Num (1#4) / (Site 6 * Site 6));
    Num (83143#10000) * Var 0 * (Num (1#1) / (Site 2 * Site 2) + Num (1#4) / (Site 6 * Site 6));
    Num (83143#10000) * Var 0 * (Num (1#1) / (Site 2 * Site 2) + Num (1#4) / (Site 6 * Site 6))]];
    [[Num (-83143#40000) * Var 0 * (Num (1#1) / (Site 1 * Site 1));
    Num (83143#20000) * Var 0 * (Num (1#1) / (Site 1 * Site 1));
    Num (83143#20000) * Var 0 * (Num (1#1) / (Site 1 * Site 1));
    Num (0#1)];
    [Num (83143#20000) * Var 0 * (Num (1#1) / (Site 1 * Site 1));
    Num (83143#10000) * Var 0 * (Num (-1#1) / (Site 1 * Site 1) + Num (1#1) / (Site 2 * Site 2) + Num (1#4) / (Site 6 * Site 6));
    Num (83143#10000) * Var 0 * (Num (-1#1) / (Site 1 * Site 1) + Num (1#1) / (Site 2 * Site 2) + Num (1#4) / (Site 6 * Site 6));
    Num (83143#10000) * Var 0 * (Num (1#1) / (Site 2 * Site 2) + Num (1#4) / (Site 6 * Site 6))];
    [Num (83143#20000) * Var 0 * (Num (1#1) / (Site 1 * Site 1));
    Num (83143#10000) * Var 0 * (Num (-1#1) / (Site 1 * Site 1) + Num (1#1) / (Site 2 * Site 2) + Num (1#4) / (Site 6 * Site 6));
    Num (83143#10000) * Var 0 * (Num (-1#1) / (Site 1 * Site 1) + Num (1#1) / (Site 2 * Site 2) + Num (1#4) / (Site 6 * Site 6) - Num (1#4) / (Site 9 * Site 9));
    Num (83143#10000) * Var 0 * (Num (1#1) / (Site 2 * Site 2) + Num (1#4) / (Site 6 * Site 6)) + Num (509#2500) * (Var 1 - Num (1#1))];
    [Num (0#1);
    Num (83143#10000) * Var 0 * (Num (1#1) / (Site 2 * Site 2) + Num (1#4) / (Site 6 * Site 6));
    Num (83143#10000) * Var 0 * (Num (1#1) / (Site 2 * Site 2) + Num (1#4) / (Site 6 * Site 6)) + Num (509#2500) * (Var 1 - Num (1#1));
    Num (83143#10000) * Var 0 * (Num (1#1) / (Site 2 * Site 2) + Num (1#4) / (Site 6 * Site 6)) + Num (-1#4) * (Var 1 - Num (1#1))]];
    [[Num (0#1);
    Num (0#1);
    Num (0#1);
    Num (0#1)];
    [Num (0#1);
    Num (83143#10000) * Var 0 * (Num (1#1) / (Site 2 * Site 2) + Num (1#4) / (Site 6 * Site 6));
    Num (83143#10000) * Var 0 * (Num (1#1) / (Site 2 * Site 2) + Num (1#4) / (Site 6 * Site 6));
    Num (83143#10000) * Var 0 * (Num (1#1) / (Site 2 * Site 2) + Num (1#4) / (Site 6 * Site 6))];
    [Num (0#1);
    Num (83143#10000) * Var 0 * (Num (1#1) / (Site 2 * Site 2) + Num (1#4) / (Site 6 * Site 6));
    Num (83143#10000) * Var 0 * (Num (1#1) / (Site 2 * Site 2) + Num (1#4) / (Site 6 * Site 6)) + Num (509#2500) * (Var 1 - Num (1#1));
    Num (83143#10000) * Var 0 * (Num (1#1) / (Site 2 * Site 2) + Num (1#4) / (Site 6 * Site 6)) + Num (-1#4) * (Var 1 - Num (1#1))];
    [Num (0#1);
    Num (83143#10000) * Var 0 * (Num (1#1) / (Site 2 * Site 2) + Num (1#4) / (Site 6 * Site 6));
    Num (83143#10000) * Var 0 * (Num (1#1) / (Site 2 * Site 2) + Num (1#4) / (Site 6 * Site 6)) + Num (-1#4) * (Var 1 - Num (1#1));
    Num (83143#10000) * Var 0 * (Num (-1#1) / (Site 3 * Site 3) + Num (1#1) / (Site 2 * Site 2) - Num (1#4) / (Site 7 * Site 7) + Num (1#4) / (Site 6 * Site 6))]]].
(** sources/spinel.c 1988: macro fillD3GDR2DS *)
Definition oSpn_d3gdr2ds :=
  [[[Num (-83143#80000) * Var 0 * (Num (1#1) / (Site 0 * Site 0) - Num (1#1) / (Site 1 * Site 1) - Num (1#4) / (Site 4 * Site 4) + Num (1#4) / (Site 5 * Site 5));
    Num (-83143#40000) * Var 0 * (Num (1#1) / (Site 1 * Site 1) - Num (1#4) / (Site 5 * Site 5));
    Num (-83143#40000) * Var 0 * (Num (1#1) / (Site 1 * Site 1) - Num (1#4) / (Site 5 * Site 5))];
    [Num (-83143#40000) * Var 0 * (Num (1#1) / (Site 1 * Site 1) + Num (1#4) / (Site 5 * Site 5));
    Num (-83143#20000) * Var 0 * (Num (-1#1) / (Site 1 * Site 1) - Num (1#4) / (Site 5 * Site 5));
    Num (-83143#20000) * Var 0 * (Num (-1#1) / (Site 1 * Site 1) - Num (1#4) / (Site 5 * Site 5))];
    [Num (-83143#40000) * Var 0 * (Num (1#1) / (Site 1 * Site 1));
    Num (-83143#20000) * Var 0 * (Num (-1#1) / (Site 1 * Site 1));
    Num (-83143#20000) * Var 0 * (Num (-1#1) / (Site 1 * Site 1))];
    [Num (0#1);
    Num (0#1);
    Num (0#1)]];
    [[Num (-83143#40000) * Var 0 * (Num (1#1) / (Site 1 * Site 1) + Num (1#4) / (Site 5 * Site 5));
    Num (-83143#20000) * Var 0 * (Num (-1#1) / (Site 1 * Site 1) - Num (1#4) / (Site 5 * Site 5));
    Num (-83143#20000) * Var 0 * (Num (-1#1) / (Site 1 * Site 1) - Num (1#4) / (Site 5 * Site 5))];
    [Num (-83143#20000) * Var 0 * (Num (-1#1) / (Site 1 * Site 1) + Num (1#4) / (Site 5 * Site 5));
    Num (-83143#10000) * Var 0 * (Num (1#1) / (Site 1 * Site 1) - Num (1#1) / (Site 2 * Site 2) - Num (1#4) / (Site 5 * Site 5) + Num (1#4) / (Site 6 * Site 6));
    Num (-83143#10000) * Var 0 * (Num (1#1) / (Site 1 * Site 1) - Num (1#4) / (Site 5 * Site 5))];
    [Num (-83143#10000) * Var 0 * (Num (-1#2) / (Site 1 * Site 1));
    Num (-83143#10000) * Var 0 * (Num (1#1) / (Site 1 * Site 1) - Num (1#1) / (Site 2 * Site 2) + Num (1#4) / (Site 6 * Site 6));
    Num (-83143#10000) * Var 0 * (Num (1#1) / (Site 1 * Site 1))];
    [Num (0#1);
    Num (-83143#10000) * Var 0 * (Num (-1#1) / (Site 2 * Site 2) + Num (1#4) / (Site 6 * Site 6));
    Num (0#1)]];
    [[Num (-83143#40000) * Var 0 * (Num (1#1) / (Site 1 * Site 1));
    Num (-83143#20000) * Var 0 * (Num (-1#1) / (Site 1 * Site 1));
    Num (-83143#20000) * Var 0 * (Num (-1#1) / (Site 1 * Site 1))];
    [Num (-83143#10000) * Var 0 * (Num (-1#2) / (Site 1 * Site 1));
    Num (-83143#10000) * Var 0 * (Num (1#1) / (Site 1 * Site 1) - Num (1#1) / (Site 2 * Site 2) + Num (1#4) / (Site 6 * Site 6));
    Num (-83143#10000) * Var 0 * (Num (1#1) / (Site 1 * Site 1))];
    [Num (-83143#10000) * Var 0 * (Num (-1#2) / (Site 1 * Site 1));
    Num (-83143#10000) * Var 0 * (Num (1#1) / (Site 1 * Site 1) - Num (1#1) / (Site 2 * Site 2) + Num (1#4) / (Site 6 * Site 6));
    Num (-83143#10000) * Var 0 * (Num (1#1) / (Site 1 * Site 1))];
    [Num (0#1);
    Num (-83143#10000) * Var 0 * (Num (-1#1) / (Site 2 * Site 2) + Num (1#4) / (Site 6 * Site 6));
    Num (0#1)]];
    [[Num (0#1);
    Num (0#1);
    Num (0#1)];
    [Num (0#1);
    Num (-83143#10000) * Var 0 * (Num (-1#1) / (Site 2 * Site 2) + Num (1#4) / (Site 6 * Site 6));
    Num (0#1)];
    [Num (0#1);
    Num (-83143#10000) * Var 0 * (Num (-1#1) / (Site 2 * Site 2) + Num (1#4) / (Site 6 * Site 6));
    Num (0#1)];
    [Num (0#1);
    Num (-83143#10000) * Var 0 * (Num (-1#1) / (Site 2 * Site 2) + Num (1#4) / (Site 6 * Site 6));
    Num (-83143#10000) * Var 0 * (Num (-1#1) / (Site 3 * Site 3) + Num (1#4) / (Site 7 * Site 7))]]].
(** sources/spinel.c 2022: macro fillD3GDR2DT *)
Definition oSpn_d3gdr2dt :=
  [[Num (83143#40000) * (Num (1#1) / Site 0 + Num (1#1) / Site 1 + Num (1#2) / Site 4 + Num (1#2) / Site 5);
    Num (83143#20000) * (Num (-1#1) / Site 1 + Num (1#2) / Site 5);
    Num (83143#20000) * (Num (-1#1) / Site 1);
    Num (0#1)];
    [Num (83143#20000) * (Num (-1#1) / Site 1 + Num (1#2) / Site 5);
    Num (83143#10000) * (Num (1#1) / Site 1 + Num (1#1) / Site 2 + Num (2#1) / Site 8 + Num (1#2) / Site 5 + Num (1#2) / Site 6);
    Num (83143#10000) * (Num (1#1) / Site 1 + Num (1#1) / Site 2 + Num (1#2) / Site 6);
    Num (83143#10000) * (Num (1#1) / Site 2 + Num (1#2) / Site 6)];
    [Num (83143#20000) * (Num (-1#1) / Site 1);
    Num (83143#10000) * (Num (1#1) / Site 1 + Num (1#1) / Site 2 + Num (1#2) / Site 6);
    Num (83143#10000) * (Num (1#1) / Site 1 + Num (1#1) / Site 2 + Num (1#2) / Site 9 + Num (1#2) / Site 6);
    Num (83143#10000) * (Num (1#1) / Site 2 + Num (1#2) / Site 6)];
    [Num (0#1);
    Num (83143#10000) * (Num (1#1) / Site 2 + Num (1#2) / Site 6);
    Num (83143#10000) * (Num (1#1) / Site 2 + Num (1#2) / Site 6);
    Num (83143#10000) * (Num (1#1) / Site 3 + Num (1#1) / Site 2 + Num (1#2) / Site 7 + Num (1#2) / Site 6)]].
(** sources/spinel.c 2032: macro fillD3GDR2DP *)
Definition oSpn_d3gdr2dp :=
  [[Num (0#1);
    Num (0#1);
    Num (0#1);
    Num (0#1)];
    [Num (0#1);
    Num (0#1);
    Num (0#1);
    Num (0#1)];
    [Num (0#1);
    Num (0#1);
    Num (2#1) * Var 5 * Num (509#5000);
    Num (2#1) * Var 5 * Num (-1#8) + Num (2#1) * Var 4 * Num (509#5000)];
    [Num (0#1);
    Num (0#1);
    Num (2#1) * Var 5 * Num (-1#8) + Num (2#1) * Var 4 * Num (509#5000);
    Num (2#1) * Var 4 * Num (-1#8)]].
(** sources/spinel.c 2042: macro fillD3GDRDS2 *)
Definition oSpn_d3gdrds2 :=
  [[[Num (-83143#80000) * Var 0 * (Num (1#1) / (Site 0 * Site 0) - Num (1#1) / (Site 1 * Site 1) + Num (1#4) / (Site 4 * Site 4) - Num (1#4) / (Site 5 * Site 5));
    Num (-83143#40000) * Var 0 * (Num (1#1) / (Site 1 * Site 1) + Num (1#4) / (Site 5 * Site 5));
    Num (-83143#40000) * Var 0 * (Num (1#1) / (Site 1 * Site 1) + Num (1#4) / (Site 5 * Site 5))];
    [Num (-83143#40000) * Var 0 * (Num (1#1) / (Site 1 * Site 1) + Num (1#4) / (Site 5 * Site 5));
    Num (-83143#20000) * Var 0 * (Num (-1#1) / (Site 1 * Site 1) - Num (1#4) / (Site 5 * Site 5));
    Num (-83143#20000) * Var 0 * (Num (-1#1) / (Site 1 * Site 1) - Num (1#4) / (Site 5 * Site 5))];
    [Num (-83143#40000) * Var 0 * (Num (1#1) / (Site 1 * Site 1) + Num (1#4) / (Site 5 * Site 5));
    Num (-83143#20000) * Var 0 * (Num (-1#1) / (Site 1 * Site 1) - Num (1#4) / (Site 5 * Site 5));
    Num (-83143#20000) * Var 0 * (Num (-1#1) / (Site 1 * Site 1) - Num (1#4) / (Site 5 * Site 5))]];
    [[Num (-83143#40000) * Var 0 * (Num (1#1) / (Site 1 * Site 1) - Num (1#4) / (Site 5 * Site 5));
    Num (-83143#20000) * Var 0 * (Num (-1#1) / (Site 1 * Site 1) + Num (1#4) / (Site 5 * Site 5));
    Num (-83143#20000) * Var 0 * (Num (-1#1) / (Site 1 * Site 1) + Num (1#4) / (Site 5 * Site 5))];
    [Num (-83143#20000) * Var 0 * (Num (-1#1) / (Site 1 * Site 1) + Num (1#4) / (Site 5 * Site 5));
    Num (-83143#10000) * Var 0 * (Num (1#1) / (Site 1 * Site 1) - Num (1#1) / (Site 2 * Site 2) - Num (1#4) / (Site 5 * Site 5) - Num (1#4) / (Site 6 * Site 6));
    Num (-83143#10000) * Var 0 * (Num (1#1) / (Site 1 * Site 1) - Num (1#4) / (Site 5 * Site 5))];
    [Num (-83143#20000) * Var 0 * (Num (-1#1) / (Site 1 * Site 1) + Num (1#4) / (Site 5 * Site 5));
    Num (-83143#10000) * Var 0 * (Num (1#1) / (Site 1 * Site 1) - Num (1#4) / (Site 5 * Site 5));
    Num (-83143#10000) * Var 0 * (Num (1#1) / (Site 1 * Site 1) - Num (1#4) / (Site 5 * Site 5))]];
    [[Num (-83143#10000) * Var 0 * (Num (1#4) / (Site 1 * Site 1));
    Num (-83143#10000) * Var 0 * (Num (-1#2) / (Site 1 * Site 1));
    Num (-83143#10000) * Var 0 * (Num (-1#2) / (Site 1 * Site 1))];
    [Num (-83143#10000) * Var 0 * (Num (-1#2) / (Site 1 * Site 1));
    Num (-83143#10000) * Var 0 * (Num (1#1) / (Site 1 * Site 1) - Num (1#1) / (Site 2 * Site 2) - Num (1#4) / (Site 6 * Site 6));
    Num (-83143#10000) * Var 0 * (Num (1#1) / (Site 1 * Site 1))];
    [Num (-83143#10000) * Var 0 * (Num (-1#2) / (Site 1 * Site 1));
    Num (-83143#10000) * Var 0 * (Num (1#1) / (Site 1 * Site 1));
    Num (-83143#10000) * Var 0 * (Num (1#1) / (Site 1 * Site 1))]];
    [[Num (0#1);
    Num (0#1);
    Num (0#1)];
    [Num (0#1);
    Num (-83143#10000) * Var 0 * (Num (-1#1) / (Site 2 * Site 2) - Num (1#4) / (Site 6 * Site 6));
    Num (0#1)];
    [Num (0#1);
    Num (0#1);
    Num (-83143#10000) * Var 0 * (Num (1#1) / (Site 3 * Site 3) + Num (1#4) / (Site 7 * Site 7))]]].
(** sources/spinel.c 2068: macro fillD3GDRDSDT *)
Definition oSpn_d3gdrdsdt :=
  [[Num (83143#40000) * (Num (1#1) / Site 0 + Num (1#1) / Site 1 - Num (1#2) / Site 4 - Num (1#2) / Site 5);
    Num (83143#20000) * (Num (-1#1) / Site 1 + Num (1#2) / Site 5);
    Num (83143#20000) * (Num (-1#1) / Site 1 + Num (1#2) / Site 5)];
    [Num (83143#10000) * (Num (-1#2) / Site 1 - Num (1#4) / Site 5);
    Num (83143#10000) * (Num (1#1) / Site 1 + Num (1#1) / Site 2 + Num (1#2) / Site 5 - Num (1#2) / Site 6);
    Num (83143#10000) * (Num (1#1) / Site 1 + Num (1#2) / Site 5)];
    [Num (83143#10000) * (Num (-1#2) / Site 1);
    Num (83143#10000) * (Num (1#1) / Site 1 + Num (1#1) / Site 2 - Num (1#2) / Site 6);
    Num (83143#10000) * (Num (1#1) / Site 1)];
    [Num (0#1);
    Num (83143#10000) * (Num (1#1) / Site 2 - Num (1#2) / Site 6);
    Num (83143#10000) * (Num (-1#1) / Site 3 + Num (1#2) / Site 7)]].
(** sources/spinel.c 2078: macro fillD3GDRDSDP *)
Definition oSpn_d3gdrdsdp :=
  [[Num (0#1);
    Num (0#1);
    Num (0#1)];
    [Num (0#1);
    Num (0#1);
    Num (0#1)];
    [Num (0#1);
    Num (0#1);
    Num (0#1)];
    [Num (0#1);
    Num (0#1);
    Num (0#1)]].
(** sources/spinel.c 856-2088: macro fillD3GDS3 *)
Definition oSpn_d3gds3 :=
  [[[Num (-83143#80000) * Var 0 * (Num (1#1) / (Site 0 * Site 0) - Num (1#1) / (Site 1 * Site 1) + Num (1#4) / (Site 5 * Site 5) - Num (1#4) / (Site 4 * Site 4));
    Num (-83143#40000) * Var 0 * (Num (1#1) / (Site 1 * Site 1) - Num (1#4) / (Site 5 * Site 5));
    Num (-83143#40000) * Var 0 * (Num (1#1) / (Site 1 * Site 1) - Num (1#4) / (Site 5 * Site 5))];
    [Num (-83143#40000) * Var 0 * (Num (1#1) / (Site 1 * Site 1) - Num (1#4) / (Site 5 * Site 5));
    Num (-83143#20000) * Var 0 * (Num (-1#1) / (Site 1 * Site 1) + Num (1#4) / (Site 5 * Site 5));
    Num (-83143#20000) * Var 0 * (Num (-1#1) / (Site 1 * Site 1) + Num (1#4) / (Site 5 * Site 5))];
    [Num (-83143#40000) * Var 0 * (Num (1#1) / (Site 1 * Site 1) - Num (1#4) / (Site 5 * Site 5));
    Num (-83143#20000) * Var 0 * (Num (-1#1) / (Site 1 * Site 1) + Num (1#4) / (Site 5 * Site 5));
    Num (-83143#20000) * Var 0 * (Num (-1#1) / (Site 1 * Site 1) + Num (1#4) / (Site 5 * Site 5))]];
    [[Num (-83143#40000) * Var 0 * (Num (1#1) / (Site 1 * Site 1) - Num (1#4) / (Site 5 * Site 5));
    Num (-83143#20000) * Var 0 * (Num (-1#1) / (Site 1 * Site 1) + Num (1#4) / (Site 5 * Site 5));
    Num (-83143#20000) * Var 0 * (Num (-1#1) / (Site 1 * Site 1) + Num (1#4) / (Site 5 * Site 5))];
    [Num (-83143#20000) * Var 0 * (Num (-1#1) / (Site 1 * Site 1) + Num (1#4) / (Site 5 * Site 5));
    Num (-83143#10000) * Var 0 * (Num (1#1) / (Site 1 * Site 1) - Num (1#1) / (Site 2 * Site 2) + Num (1#4) / (Site 6 * Site 6) - Num (1#4) / (Site 5 * Site 5));
    Num (-83143#10000) * Var 0 * (Num (1#1) / (Site 1 * Site 1) - Num (1#4) / (Site 5 * Site 5))];
    [Num (-83143#20000) * Var 0 * (Num (-1#1) / (Site 1 * Site 1) + Num (1#4) / (Site 5 * Site 5));
    Num (-83143#10000) * Var 0 * (Num (1#1) / (Site 1 * Site 1) - Num (1#4) / (Site 5 * Site 5));
    Num (-83143#10000) * Var 0 * (Num (1#1) / (Site 1 * Site 1) - Num (1#4) / (Site 5 * Site 5))]];
    [[Num (-83143#40000) * Var 0 * (Num (1#1) / (Site 1 * Site 1) - Num (1#4) / (Site 5 * Site 5));
    Num (-83143#20000) * Var 0 * (Num (-1#1) / (Site 1 * Site 1) + Num (1#4) / (Site 5 * Site 5));
    Num (-83143#20000) * Var 0 * (Num (-1#1) / (Site 1 * Site 1) + Num (1#4) / (Site 5 * Site 5))];
    [Num (-83143#20000) * Var 0 * (Num (-1#1) / (Site 1 * Site 1) + Num (1#4) / (Site 5 * Site 5));
    Num (-83143#10000) * Var 0 * (Num (1#1) / (Site 1 * Site 1) - Num (1#4) / (Site 5 * Site 5));
    Num (-83143#10000) * Var 0 * (Num (1#1) / (Site 1 * Site 1) - Num (1#4) / (Site 5 * Site 5))];
    [Num (-83143#20000) * Var 0 * (Num (-1#1) / (Site 1 * Site 1) + Num (1#4) / (Site 5 * Site 5));
    Num (-83143#10000) * Var 0 * (Num (1#1) / (Site 1 * Site 1) - Num (1#4) / (Site 5 * Site 5));
    Num (-83143#10000) * Var 0 * (Num (1#1) / (Site 1 * Site 1) - Num (1#1) / (Site 3 * Site 3) + Num (1#4) / (Site 7 * Site 7) - Num (1#4) / (Site 5 * Site 5))]]].
(** sources/spinel.c 860-2108: macro fillD3GDS2DT *)
Definition oSpn_d3gds2dt :=
  [[Num (83143#40000) * (Num (1#1) / Site 0 + Num (1#1) / Site 1 + Num (1#2) / Site 5 + Num (1#2) / Site 4);
    Num (83143#20000) * (Num (-1#1) / Site 1 - Num (1#2) / Site 5);
    Num (83143#20000) * (Num (-1#1) / Site 1 - Num (1#2) / Site 5)];
    [Num (83143#20000) * (Num (-1#1) / Site 1 - Num (1#2) / Site 5);
    Num (83143#10000) * (Num (1#1) / Site 1 + Num (1#1) / Site 2 + Num (1#2) / Site 6 + Num (1#2) / Site 5);
    Num (83143#10000) * (Num (1#1) / Site 1 + Num (1#2) / Site 5)];
    [Num (83143#20000) * (Num (-1#1) / Site 1 - Num (1#2) / Site 5);
    Num (83143#10000) * (Num (1#1) / Site 1 + Num (1#2) / Site 5);
    Num (83143#10000) * (Num (1#1) / Site 1 + Num (1#1) / Site 3 + Num (1#2) / Site 7 + Num (1#2) / Site 5)]].
(** sources/spinel.c 864-2116: macro fillD3GDS2DP *)
Definition oSpn_d3gds2dp :=
  [[Num (0#1);
    Num (0#1);
    Num (0#1)];
    [Num (0#1);
    Num (0#1);
    Num (0#1)];
    [Num (0#1);
    Num (0#1);
    Num (0#1)]].
(** sources/spinel.c 868-2124: macro fillD3GDSDT2 *)
Definition oSpn_d3gdsdt2 :=
  [Num (0#1);
    Num (0#1);
    Num (0#1)].
(** sources/spinel.c 872-2127: macro fillD3GDSDTDP *)
Definition oSpn_d3gdsdtdp :=
  [Num (0#1);
    Num (0#1);
    Num (0#1)].
(** sources/spinel.c 876-2131: macro fillD3GDSDP2 *)
Definition oSpn_d3gdsdp2 :=
  [Num (0#1);
    Num (0#1);
    Num (0#1)].
(** sources/spinel.c 2134: macro fillD3GDRDT2 *)
Definition oSpn_d3gdrdt2 :=
  [Num (0#1);
    Num (0#1);
    Num (0#1);
    Num (0#1)].
(** sources/spinel.c 2138: macro fillD3GDRDTDP *)
Definition oSpn_d3gdrdtdp :=
  [Num (0#1);
    Num (0#1);
    Num (0#1);
    Num (0#1)].
(** sources/spinel.c 2142: macro fillD3GDRDP2 *)
Definition oSpn_d3gdrdp2 :=
  [Num (0#1);
    Num (0#1);
    Num (0#1);
    Num (0#1)].
(** sources/spinel.c 1691: macro D2GDT2 *)
Definition oSpn_D2GDT2 :=
  Num (0#1).
(** sources/spinel.c 1692: macro D2GDTDP *)
Definition oSpn_D2GDTDP :=
  Num (0#1).
(** sources/spinel.c 1693: macro D2GDP2 *)
Definition oSpn_D2GDP2 :=
  Num (0#1).
(** sources/spinel.c 1893: macro D3GDT3 *)
Definition oSpn_D3GDT3 :=
  Num (0#1).
(** sources/spinel.c 1894: macro D3GDT2DP *)
Definition oSpn_D3GDT2DP :=
  Num (0#1).
(** sources/spinel.c 1895: macro D3GDTDP2 *)
Definition oSpn_D3GDTDP2 :=
  Num (0#1).
(** sources/spinel.c 1896: macro D3GDP3 *)
Definition oSpn_D3GDP3 :=
  Num (0#1).
(** sources/spinel.c 1563: macro ENDMEMBERS *)
Definition oSpn_end :=
  Var 3 * Var 60 + (Num (1#1) - Var 2 - Var 3 - Var 4 - Var 5) * Var 61 + Var 5 * Var 62 + Var 2 * Var 63 + Var 4 * Var 64.
(** sources/spinel.c 1566-1569: macros DENDDRi *)
Definition oSpn_dend :=
  [Var 63 - Var 61;
    Var 60 - Var 61;
    Var 64 - Var 61;
    Var 62 - Var 61].
(** sources/spinel.c, order: the site fractions and their clamps *)
Definition oSpn_sites := [mkSite ((Var 2 + Var 40) / Num (2#1)) Both0;
    mkSite (Var 4 - Num (1#2) * Var 2 - Num (1#2) * Var 40 + Var 41 + Var 3 + Var 42) Both0;
    mkSite (Num (1#1) - Var 3 - Var 4 - Var 5 - Var 41) Both0;
    mkSite (Var 5 - Var 42) Both0;
    mkSite ((Var 2 - Var 40) / Num (4#1)) Both0;
    mkSite ((Num (2#1) - Var 2 + Var 40 - Num (2#1) * Var 41 - Num (2#1) * Var 3 - Num (2#1) * Var 42) / Num (4#1)) Both0;
    mkSite ((Num (1#1) - Var 3 - Var 4 - Var 5 + Var 41) / Num (2#1)) Both0;
    mkSite ((Var 5 + Var 42) / Num (2#1)) Both0;
    mkSite (Var 3) Both0;
    mkSite (Var 4 / Num (2#1)) Both0].
Definition oSpn := mkOrd "spinel" 5 4 3 LU false oSpn_sites (Some (oSpn_end, oSpn_dend)) oSpn_g oSpn_s oSpn_v oSpn_r1 oSpn_s1
  oSpn_d2gdr2 oSpn_d2gdrds oSpn_d2gdrdt oSpn_d2gdrdp oSpn_d2gds2 oSpn_d2gdsdt oSpn_d2gdsdp oSpn_d3gdr3 oSpn_d3gdr2ds oSpn_d3gdr2dt oSpn_d3gdr2dp oSpn_d3gdrds2 oSpn_d3gdrdsdt oSpn_d3gdrdsdp oSpn_d3gds3 oSpn_d3gds2dt oSpn_d3gds2dp oSpn_d3gdsdt2 oSpn_d3gdsdtdp oSpn_d3gdsdp2 oSpn_d3gdrdt2 oSpn_d3gdrdtdp oSpn_d3gdrdp2 oSpn_D2GDT2 oSpn_D2GDTDP oSpn_D2GDP2 oSpn_D3GDT3 oSpn_D3GDT2DP oSpn_D3GDTDP2 oSpn_D3GDP3.
Definition ordPhases : list ordPhase := [oAph; oAph_ortho; oTaj; oCpx; oCum; oMel; oNph; oOlv; oOox; oOpx; oRhm; oSpn].
