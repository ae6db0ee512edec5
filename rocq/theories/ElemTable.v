(** Generated by /verif/tools/gen_tables.py from sources/melts_support.c:140-248:
    elements[j] for j = 1 .. ne-1 (symbol, atomic weight); elements[0] is a dummy. *)
From Coq Require Import String List QArith.
Import ListNotations.
Local Open Scope string_scope.

Definition tbl_elements : list (string * Q) := [
  ("H", 10079 # 10000);
  ("He", 400260 # 100000);
  ("Li", 694 # 100);
  ("Be", 901218 # 100000);
  ("B", 1081 # 100);
  ("C", 12011 # 1000);
  ("N", 140067 # 10000);
  ("O", 159994 # 10000);
  ("F", 18998403 # 1000000);
  ("Ne", 20179 # 1000);
  ("Na", 2298977 # 100000);
  ("Mg", 24305 # 1000);
  ("Al", 2698154 # 100000);
  ("Si", 280855 # 10000);
  ("P", 3097376 # 100000);
  ("S", 3206 # 100);
  ("Cl", 35453 # 1000);
  ("Ar", 39948 # 1000);
  ("K", 39102 # 1000);
  ("Ca", 4008 # 100);
  ("Sc", 449559 # 10000);
  ("Ti", 4790 # 100);
  ("V", 509415 # 10000);
  ("Cr", 51996 # 1000);
  ("Mn", 549380 # 10000);
  ("Fe", 55847 # 1000);
  ("Co", 589332 # 10000);
  ("Ni", 5871 # 100);
  ("Cu", 63546 # 1000);
  ("Zn", 6538 # 100);
  ("Ga", 69735 # 1000);
  ("Ge", 7259 # 100);
  ("As", 749216 # 10000);
  ("Se", 7896 # 100);
  ("Br", 79904 # 1000);
  ("Kr", 8380 # 100);
  ("Rb", 854678 # 10000);
  ("Sr", 8762 # 100);
  ("Y", 889059 # 10000);
  ("Zr", 9122 # 100);
  ("Nb", 929064 # 10000);
  ("Mo", 9594 # 100);
  ("Tc", 989062 # 10000);
  ("Ru", 10107 # 100);
  ("Rh", 1029055 # 10000);
  ("Pd", 1064 # 10);
  ("Ag", 107868 # 1000);
  ("Cd", 11241 # 100);
  ("In", 11482 # 100);
  ("Sn", 11869 # 100);
  ("Sb", 12175 # 100);
  ("Te", 12760 # 100);
  ("I", 1269045 # 10000);
  ("Xe", 13130 # 100);
  ("Cs", 1329054 # 10000);
  ("Ba", 13733 # 100);
  ("La", 1389055 # 10000);
  ("Ce", 14012 # 100);
  ("Pr", 1409077 # 10000);
  ("Nd", 14424 # 100);
  ("Pm", 145 # 1);
  ("Sm", 1504 # 10);
  ("Eu", 15196 # 100);
  ("Gd", 15725 # 100);
  ("Tb", 1589254 # 10000);
  ("Dy", 16250 # 100);
  ("Ho", 1649304 # 10000);
  ("Er", 16726 # 100);
  ("Tm", 1689342 # 10000);
  ("Yb", 17304 # 100);
  ("Lu", 174967 # 1000);
  ("Hf", 17849 # 100);
  ("Ta", 1809479 # 10000);
  ("W", 18385 # 100);
  ("Re", 186207 # 1000);
  ("Os", 1902 # 10);
  ("Ir", 19222 # 100);
  ("Pt", 19509 # 100);
  ("Au", 1969665 # 10000);
  ("Hg", 20059 # 100);
  ("Tl", 20437 # 100);
  ("Pb", 2072 # 10);
  ("Bi", 2089804 # 10000);
  ("Po", 209 # 1);
  ("At", 210 # 1);
  ("Rn", 222 # 1);
  ("Fr", 223 # 1);
  ("Ra", 2260254 # 10000);
  ("Ac", 227 # 1);
  ("Th", 2320381 # 10000);
  ("Pa", 2310359 # 10000);
  ("U", 238029 # 1000);
  ("Np", 2370482 # 10000);
  ("Pu", 244 # 1);
  ("Am", 243 # 1);
  ("Cm", 247 # 1);
  ("Bk", 247 # 1);
  ("Cf", 251 # 1);
  ("Es", 254 # 1);
  ("Fm", 257 # 1);
  ("Md", 258 # 1);
  ("No", 259 # 1);
  ("Lw", 260 # 1);
  ("Rf", 260 # 1);
  ("Ha", 260 # 1);
  ("ZZ", 263 # 1)
].
