(** GENERATED by tools/gen_ordact.py from /repo/sources: do not edit. The tables that the activity functions of the
    solution phases with ordering parameters fill in: fr[i][j], gs[i][k], dfrdr[i][j]. Variable 2+i is r[i], 40+k is s[k]. *)
From Coq Require Import QArith NArith List String.
From Verif Require Import Sym SolnModel ConData OrdModel OrdData OrdActModel.
Import List ListNotations.
Local Open Scope N_scope.
Local Open Scope Q_scope.
Local Open Scope sym_scope.
Arguments Num _%Q. Arguments Var _%N. Arguments Site _%N. Arguments Log _%N.

(** sources/amphibole.c 1742-1857: fr[i][j] *)
Definition aAph_fr :=
  [[(- (Num (1#1) + Var 2));
    (- Var 3)];
    [Num (1#1) - Var 2;
    (- Var 3)];
    [(- (Num (1#1) + Var 2));
    Num (1#1) - Var 3]].
(** sources/amphibole.c 1742-1857: gs[i][j] *)
Definition aAph_gs :=
  [[(- Var 40);
    (- Var 41)];
    [(- Var 40);
    (- Var 41)];
    [(- Var 40);
    (- Var 41)]].
(** sources/amphibole.c 1742-1857: dfrdr[i][j] *)
Definition aAph_dfrdr :=
  [[Num (-1#1);
    Num (-1#1)];
    [Num (-1#1);
    Num (-1#1)];
    [Num (-1#1);
    Num (-1#1)]].
(** sources/amphibole.c 1742-1857, the activity function *)
Definition aAph := mkAct oAph conAph aAph_fr aAph_gs aAph_dfrdr.
(** sources/amphibole.c 1742-1857: fr[i][j] *)
Definition aAph_ortho_fr :=
  [[(- (Num (1#1) + Var 2));
    (- Var 3)];
    [Num (1#1) - Var 2;
    (- Var 3)];
    [(- (Num (1#1) + Var 2));
    Num (1#1) - Var 3]].
(** sources/amphibole.c 1742-1857: gs[i][j] *)
Definition aAph_ortho_gs :=
  [[(- Var 40);
    (- Var 41)];
    [(- Var 40);
    (- Var 41)];
    [(- Var 40);
    (- Var 41)]].
(** sources/amphibole.c 1742-1857: dfrdr[i][j] *)
Definition aAph_ortho_dfrdr :=
  [[Num (-1#1);
    Num (-1#1)];
    [Num (-1#1);
    Num (-1#1)];
    [Num (-1#1);
    Num (-1#1)]].
(** sources/amphibole.c 1742-1857, the activity function *)
Definition aAph_ortho := mkAct oAph_ortho conAph aAph_ortho_fr aAph_ortho_gs aAph_ortho_dfrdr.
(** sources/biotiteTaj.c 1169-1280: fr[i][j] *)
Definition aTaj_fr :=
  [[(- Var 2);
    (- Var 3);
    (- Var 4);
    (- Var 5)];
    [Num (1#1) - Var 2;
    (- Var 3);
    (- Var 4);
    (- Var 5)];
    [(- Var 2);
    Num (1#1) - Var 3;
    (- Var 4);
    (- Var 5)];
    [(- Var 2);
    (- Var 3);
    Num (1#1) - Var 4;
    (- Var 5)];
    [(- Var 2);
    (- Var 3);
    (- Var 4);
    Num (1#1) - Var 5]].
(** sources/biotiteTaj.c 1169-1280: gs[i][j] *)
Definition aTaj_gs :=
  [[Num (1#1) - Var 40];
    [(- (Num (1#2) + Var 40))];
    [Num (1#1) - Var 40];
    [(- Var 40)];
    [(- Var 40)]].
(** sources/biotiteTaj.c 1169-1280: dfrdr[i][j] *)
Definition aTaj_dfrdr :=
  [[Num (-1#1);
    Num (-1#1);
    Num (-1#1);
    Num (-1#1)];
    [Num (-1#1);
    Num (-1#1);
    Num (-1#1);
    Num (-1#1)];
    [Num (-1#1);
    Num (-1#1);
    Num (-1#1);
    Num (-1#1)];
    [Num (-1#1);
    Num (-1#1);
    Num (-1#1);
    Num (-1#1)];
    [Num (-1#1);
    Num (-1#1);
    Num (-1#1);
    Num (-1#1)]].
(** sources/biotiteTaj.c 1169-1280, the activity function *)
Definition aTaj := mkAct oTaj conTaj aTaj_fr aTaj_gs aTaj_dfrdr.
(** sources/clinopyroxene.c 4583-4759: fr[i][j] *)
Definition aCpx_fr :=
  [[(- Var 2);
    (- Var 3);
    (- Var 4);
    (- Var 5);
    (- Var 6);
    (- Var 7)];
    [(- Var 2);
    (- Var 3);
    (- Var 4);
    (- Var 5);
    (- Var 6);
    Num (1#1) - Var 7];
    [Num (1#1) - Var 2;
    (- Var 3);
    (- Var 4);
    (- Var 5);
    (- Var 6);
    (- Var 7)];
    [(- Var 2);
    Num (1#1) - Var 3;
    (- Var 4);
    (- Var 5);
    (- Var 6);
    (- Var 7)];
    [(- Var 2);
    (- Var 3);
    Num (1#1) - Var 4;
    (- Var 5);
    (- Var 6);
    (- Var 7)];
    [(- Var 2);
    (- Var 3);
    (- Var 4);
    Num (1#1) - Var 5;
    (- Var 6);
    (- Var 7)];
    [(- Var 2);
    Num (1#2) - Var 3;
    Num (-1#2) - Var 4;
    Num (1#2) - Var 5;
    Num (1#1) - Var 6;
    (- Var 7)]].
(** sources/clinopyroxene.c 4583-4759: gs[i][j] *)
Definition aCpx_gs :=
  [[(- Var 40);
    (- Var 41)];
    [(- Var 40);
    Num (-1#1) - Var 41];
    [(- Var 40);
    (- Var 41)];
    [(- Var 40);
    (- Var 41)];
    [(- Var 40);
    (- Var 41)];
    [Num (1#1) - Var 40;
    (- Var 41)];
    [Num (-1#1) - Var 40;
    (- Var 41)]].
(** sources/clinopyroxene.c 4583-4759: dfrdr[i][j] *)
Definition aCpx_dfrdr :=
  [[Num (-1#1);
    Num (-1#1);
    Num (-1#1);
    Num (-1#1);
    Num (-1#1);
    Num (-1#1)];
    [Num (-1#1);
    Num (-1#1);
    Num (-1#1);
    Num (-1#1);
    Num (-1#1);
    Num (-1#1)];
    [Num (-1#1);
    Num (-1#1);
    Num (-1#1);
    Num (-1#1);
    Num (-1#1);
    Num (-1#1)];
    [Num (-1#1);
    Num (-1#1);
    Num (-1#1);
    Num (-1#1);
    Num (-1#1);
    Num (-1#1)];
    [Num (-1#1);
    Num (-1#1);
    Num (-1#1);
    Num (-1#1);
    Num (-1#1);
    Num (-1#1)];
    [Num (-1#1);
    Num (-1#1);
    Num (-1#1);
    Num (-1#1);
    Num (-1#1);
    Num (-1#1)];
    [Num (-1#1);
    Num (-1#1);
    Num (-1#1);
    Num (-1#1);
    Num (-1#1);
    Num (-1#1)]].
(** sources/clinopyroxene.c 4583-4759, the activity function *)
Definition aCpx := mkAct oCpx conCpx aCpx_fr aCpx_gs aCpx_dfrdr.
(** sources/cummingtonite.c 1338-1451: fr[i][j] *)
Definition aCum_fr :=
  [[(- (Num (1#1) + Var 2))];
    [Num (1#1) - Var 2]].
(** sources/cummingtonite.c 1338-1451: gs[i][j] *)
Definition aCum_gs :=
  [[(- Var 40);
    (- Var 41)];
    [(- Var 40);
    (- Var 41)]].
(** sources/cummingtonite.c 1338-1451: dfrdr[i][j] *)
Definition aCum_dfrdr :=
  [[Num (-1#1)];
    [Num (-1#1)]].
(** sources/cummingtonite.c 1338-1451, the activity function *)
Definition aCum := mkAct oCum conCum aCum_fr aCum_gs aCum_dfrdr.
(** sources/melilite.c 2053-2197: fr[i][j] *)
Definition aMel_fr :=
  [[(- Var 2);
    (- Var 3);
    (- Var 4)];
    [Num (1#1) - Var 2;
    (- Var 3);
    (- Var 4)];
    [(- Var 2);
    Num (1#1) - Var 3;
    (- Var 4)];
    [(- Var 2);
    (- Var 3);
    Num (1#1) - Var 4]].
(** sources/melilite.c 2053-2197: gs[i][j] *)
Definition aMel_gs :=
  [[(- Var 40)];
    [Num (1#1) - Var 40];
    [(- Var 40)];
    [(- Var 40)]].
(** sources/melilite.c 2053-2197: dfrdr[i][j] *)
Definition aMel_dfrdr :=
  [[Num (-1#1);
    Num (-1#1);
    Num (-1#1)];
    [Num (-1#1);
    Num (-1#1);
    Num (-1#1)];
    [Num (-1#1);
    Num (-1#1);
    Num (-1#1)];
    [Num (-1#1);
    Num (-1#1);
    Num (-1#1)]].
(** sources/melilite.c 2053-2197, the activity function *)
Definition aMel := mkAct oMel conMel aMel_fr aMel_gs aMel_dfrdr.
(** sources/nepheline.c 1618-1739: fr[i][j] *)
Definition aNph_fr :=
  [[(- Var 2);
    (- Var 3);
    (- Var 4)];
    [Num (1#1) - Var 2;
    (- Var 3);
    (- Var 4)];
    [(- Var 2);
    Num (1#1) - Var 3;
    (- Var 4)];
    [(- Var 2);
    (- Var 3);
    Num (1#1) - Var 4]].
(** sources/nepheline.c 1618-1739: gs[i][j] *)
Definition aNph_gs :=
  [[(- Var 40)];
    [(- Var 40)];
    [(- Var 40)];
    [(- Var 40)]].
(** sources/nepheline.c 1618-1739: dfrdr[i][j] *)
Definition aNph_dfrdr :=
  [[Num (-1#1);
    Num (-1#1);
    Num (-1#1)];
    [Num (-1#1);
    Num (-1#1);
    Num (-1#1)];
    [Num (-1#1);
    Num (-1#1);
    Num (-1#1)];
    [Num (-1#1);
    Num (-1#1);
    Num (-1#1)]].
(** sources/nepheline.c 1618-1739, the activity function *)
Definition aNph := mkAct oNph conNph aNph_fr aNph_gs aNph_dfrdr.
(** sources/olivine.c 2757-2898: fr[i][j] *)
Definition aOlv_fr :=
  [[Num (1#1) - Var 2;
    (- (Num (1#1) + Var 3));
    (- (Num (1#1) + Var 4));
    (- (Num (1#1) + Var 5));
    (- Var 6)];
    [(- (Num (1#1) + Var 2));
    Num (1#1) - Var 3;
    (- (Num (1#1) + Var 4));
    (- (Num (1#1) + Var 5));
    (- Var 6)];
    [(- (Num (1#1) + Var 2));
    (- (Num (1#1) + Var 3));
    Num (1#1) - Var 4;
    (- (Num (1#1) + Var 5));
    (- Var 6)];
    [(- (Num (1#1) + Var 2));
    (- (Num (1#1) + Var 3));
    (- (Num (1#1) + Var 4));
    Num (1#1) - Var 5;
    (- Var 6)];
    [(- (Num (1#1) + Var 2));
    (- (Num (1#1) + Var 3));
    (- (Num (1#1) + Var 4));
    (- (Num (1#1) + Var 5));
    Num (1#1) - Var 6];
    [(- (Num (1#1) + Var 2));
    (- (Num (1#1) + Var 3));
    (- (Num (1#1) + Var 4));
    (- (Num (1#1) + Var 5));
    (- Var 6)]].
(** sources/olivine.c 2757-2898: gs[i][j] *)
Definition aOlv_gs :=
  [[(- Var 40);
    (- Var 41);
    (- Var 42);
    (- Var 43)];
    [(- Var 40);
    (- Var 41);
    (- Var 42);
    (- Var 43)];
    [(- Var 40);
    (- Var 41);
    (- Var 42);
    (- Var 43)];
    [(- Var 40);
    (- Var 41);
    (- Var 42);
    (- Var 43)];
    [(- Var 40);
    (- Var 41);
    (- Var 42);
    (- Var 43)];
    [(- Var 40);
    (- Var 41);
    (- Var 42);
    (- Var 43)]].
(** sources/olivine.c 2757-2898: dfrdr[i][j] *)
Definition aOlv_dfrdr :=
  [[Num (-1#1);
    Num (-1#1);
    Num (-1#1);
    Num (-1#1);
    Num (-1#1)];
    [Num (-1#1);
    Num (-1#1);
    Num (-1#1);
    Num (-1#1);
    Num (-1#1)];
    [Num (-1#1);
    Num (-1#1);
    Num (-1#1);
    Num (-1#1);
    Num (-1#1)];
    [Num (-1#1);
    Num (-1#1);
    Num (-1#1);
    Num (-1#1);
    Num (-1#1)];
    [Num (-1#1);
    Num (-1#1);
    Num (-1#1);
    Num (-1#1);
    Num (-1#1)];
    [Num (-1#1);
    Num (-1#1);
    Num (-1#1);
    Num (-1#1);
    Num (-1#1)]].
(** sources/olivine.c 2757-2898, the activity function *)
Definition aOlv := mkAct oOlv conOlv aOlv_fr aOlv_gs aOlv_dfrdr.
(** sources/ortho-oxide.c 2136-2278: fr[i][j] *)
Definition aOox_fr :=
  [[(- Var 2);
    (- Var 3)];
    [Num (1#1) - Var 2;
    (- Var 3)];
    [(- Var 2);
    Num (1#1) - Var 3]].
(** sources/ortho-oxide.c 2136-2278: gs[i][j] *)
Definition aOox_gs :=
  [[Num (1#1) - Var 40;
    (- Var 41);
    (- Var 42)];
    [(- Var 40);
    Num (1#1) - Var 41;
    (- Var 42)];
    [(- Var 40);
    (- Var 41);
    Num (1#1) - Var 42]].
(** sources/ortho-oxide.c 2136-2278: dfrdr[i][j] *)
Definition aOox_dfrdr :=
  [[Num (-1#1);
    Num (-1#1)];
    [Num (-1#1);
    Num (-1#1)];
    [Num (-1#1);
    Num (-1#1)]].
(** sources/ortho-oxide.c 2136-2278, the activity function *)
Definition aOox := mkAct oOox conOox aOox_fr aOox_gs aOox_dfrdr.
(** sources/orthopyroxene.c 4443-4620: fr[i][j] *)
Definition aOpx_fr :=
  [[(- Var 2);
    (- Var 3);
    (- Var 4);
    (- Var 5);
    (- Var 6);
    (- Var 7)];
    [(- Var 2);
    (- Var 3);
    (- Var 4);
    (- Var 5);
    (- Var 6);
    Num (1#1) - Var 7];
    [Num (1#1) - Var 2;
    (- Var 3);
    (- Var 4);
    (- Var 5);
    (- Var 6);
    (- Var 7)];
    [(- Var 2);
    Num (1#1) - Var 3;
    (- Var 4);
    (- Var 5);
    (- Var 6);
    (- Var 7)];
    [(- Var 2);
    (- Var 3);
    Num (1#1) - Var 4;
    (- Var 5);
    (- Var 6);
    (- Var 7)];
    [(- Var 2);
    (- Var 3);
    (- Var 4);
    Num (1#1) - Var 5;
    (- Var 6);
    (- Var 7)];
    [(- Var 2);
    Num (1#2) - Var 3;
    Num (-1#2) - Var 4;
    Num (1#2) - Var 5;
    Num (1#1) - Var 6;
    (- Var 7)]].
(** sources/orthopyroxene.c 4443-4620: gs[i][j] *)
Definition aOpx_gs :=
  [[(- Var 40);
    (- Var 41)];
    [(- Var 40);
    Num (-1#1) - Var 41];
    [(- Var 40);
    (- Var 41)];
    [(- Var 40);
    (- Var 41)];
    [(- Var 40);
    (- Var 41)];
    [Num (1#1) - Var 40;
    (- Var 41)];
    [Num (-1#1) - Var 40;
    (- Var 41)]].
(** sources/orthopyroxene.c 4443-4620: dfrdr[i][j] *)
Definition aOpx_dfrdr :=
  [[Num (-1#1);
    Num (-1#1);
    Num (-1#1);
    Num (-1#1);
    Num (-1#1);
    Num (-1#1)];
    [Num (-1#1);
    Num (-1#1);
    Num (-1#1);
    Num (-1#1);
    Num (-1#1);
    Num (-1#1)];
    [Num (-1#1);
    Num (-1#1);
    Num (-1#1);
    Num (-1#1);
    Num (-1#1);
    Num (-1#1)];
    [Num (-1#1);
    Num (-1#1);
    Num (-1#1);
    Num (-1#1);
    Num (-1#1);
    Num (-1#1)];
    [Num (-1#1);
    Num (-1#1);
    Num (-1#1);
    Num (-1#1);
    Num (-1#1);
    Num (-1#1)];
    [Num (-1#1);
    Num (-1#1);
    Num (-1#1);
    Num (-1#1);
    Num (-1#1);
    Num (-1#1)];
    [Num (-1#1);
    Num (-1#1);
    Num (-1#1);
    Num (-1#1);
    Num (-1#1);
    Num (-1#1)]].
(** sources/orthopyroxene.c 4443-4620, the activity function *)
Definition aOpx := mkAct oOpx conOpx aOpx_fr aOpx_gs aOpx_dfrdr.
(** sources/rhombohedral.c 2454-2601: fr[i][j] *)
Definition aRhm_fr :=
  [[(- Var 2);
    Num (1#1) - Var 3;
    (- Var 4)];
    [(- Var 2);
    (- Var 3);
    (- Var 4)];
    [Num (1#1) - Var 2;
    (- Var 3);
    (- Var 4)];
    [(- Var 2);
    (- Var 3);
    Num (1#1) - Var 4]].
(** sources/rhombohedral.c 2454-2601: gs[i][j] *)
Definition aRhm_gs :=
  [[(- Var 40);
    Num (1#1) - Var 41;
    (- Var 42)];
    [(- Var 40);
    (- Var 41);
    (- Var 42)];
    [Num (1#1) - Var 40;
    (- Var 41);
    (- Var 42)];
    [(- Var 40);
    (- Var 41);
    Num (1#1) - Var 42]].
(** sources/rhombohedral.c 2454-2601: dfrdr[i][j] *)
Definition aRhm_dfrdr :=
  [[Num (-1#1);
    Num (-1#1);
    Num (-1#1)];
    [Num (-1#1);
    Num (-1#1);
    Num (-1#1)];
    [Num (-1#1);
    Num (-1#1);
    Num (-1#1)];
    [Num (-1#1);
    Num (-1#1);
    Num (-1#1)]].
(** sources/rhombohedral.c 2454-2601, the activity function *)
Definition aRhm := mkAct oRhm conRhm aRhm_fr aRhm_gs aRhm_dfrdr.
(** sources/spinel.c 2995-3151: fr[i][j] *)
Definition aSpn_fr :=
  [[(- Var 2);
    Num (1#1) - Var 3;
    (- Var 4);
    (- Var 5)];
    [(- Var 2);
    (- Var 3);
    (- Var 4);
    (- Var 5)];
    [(- Var 2);
    (- Var 3);
    (- Var 4);
    Num (1#1) - Var 5];
    [Num (1#1) - Var 2;
    (- Var 3);
    (- Var 4);
    (- Var 5)];
    [(- Var 2);
    (- Var 3);
    Num (1#1) - Var 4;
    (- Var 5)]].
(** sources/spinel.c 2995-3151: gs[i][j] *)
Definition aSpn_gs :=
  [[(- Var 40);
    (- Var 41);
    (- Var 42)];
    [(- Var 40);
    Num (1#1) - Var 41;
    (- Var 42)];
    [(- Var 40);
    (- Var 41);
    (- Var 42)];
    [Num (1#1) - Var 40;
    Num (1#1) - Var 41;
    (- Var 42)];
    [(- Var 40);
    (- Var 41);
    (- Var 42)]].
(** sources/spinel.c 2995-3151: dfrdr[i][j] *)
Definition aSpn_dfrdr :=
  [[Num (-1#1);
    Num (-1#1);
    Num (-1#1);
    Num (-1#1)];
    [Num (-1#1);
    Num (-1#1);
    Num (-1#1);
    Num (-1#1)];
    [Num (-1#1);
    Num (-1#1);
    Num (-1#1);
    Num (-1#1)];
    [Num (-1#1);
    Num (-1#1);
    Num (-1#1);
    Num (-1#1)];
    [Num (-1#1);
    Num (-1#1);
    Num (-1#1);
    Num (-1#1)]].
(** sources/spinel.c 2995-3151, the activity function *)
Definition aSpn := mkAct oSpn conSpn aSpn_fr aSpn_gs aSpn_dfrdr.
Definition ordActs : list ordAct := [aAph; aAph_ortho; aTaj; aCpx; aCum; aMel; aNph; aOlv; aOox; aOpx; aRhm; aSpn].
