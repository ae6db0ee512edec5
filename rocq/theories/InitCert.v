(** Generated by /verif/tools/gen_cert.py. Certificates: for each element index k of
    the listed rows, row k of a right inverse of the element matrix of the oxides
    (or of the first 19 liquid components). Nothing is trusted: see InitProofs.v. *)
From Coq Require Import List QArith.
Import ListNotations.
Local Open Scope Q_scope.

Definition cert_bulk : list (nat * list Q) := [
  (1%nat, [0; 0; 0; (-1#2); 0; 1; 0; 0; 0; 0; 0; 0; 0; 0; (1#2); 0; 0; 0; 0]);
  (6%nat, [0; 0; 0; (-2); 0; 4; 0; 0; 0; 0; 0; 0; 0; 0; 0; 1; 0; 0; 0]);
  (8%nat, [0; 0; 0; 1; 0; (-2); 0; 0; 0; 0; 0; 0; 0; 0; 0; 0; 0; 0; 0]);
  (9%nat, [0; 0; 0; (1#2); 0; (-1); 0; 0; 0; 0; 0; 0; 0; 0; 0; 0; 0; 0; (1#2)]);
  (11%nat, [0; 0; 0; (-1#2); 0; 1; 0; 0; 0; 0; 0; (1#2); 0; 0; 0; 0; 0; 0; 0]);
  (12%nat, [0; 0; 0; (-1); 0; 2; 0; 1; 0; 0; 0; 0; 0; 0; 0; 0; 0; 0; 0]);
  (13%nat, [0; 0; (1#2); (-3#2); 0; 3; 0; 0; 0; 0; 0; 0; 0; 0; 0; 0; 0; 0; 0]);
  (14%nat, [1; 0; 0; (-2); 0; 4; 0; 0; 0; 0; 0; 0; 0; 0; 0; 0; 0; 0; 0]);
  (15%nat, [0; 0; 0; (-5#2); 0; 5; 0; 0; 0; 0; 0; 0; 0; (1#2); 0; 0; 0; 0; 0]);
  (16%nat, [0; 0; 0; (-3); 0; 6; 0; 0; 0; 0; 0; 0; 0; 0; 0; 0; 1; 0; 0]);
  (17%nat, [0; 0; 0; (1#2); 0; (-1); 0; 0; 0; 0; 0; 0; 0; 0; 0; 0; 0; (1#2); 0]);
  (19%nat, [0; 0; 0; (-1#2); 0; 1; 0; 0; 0; 0; 0; 0; (1#2); 0; 0; 0; 0; 0; 0]);
  (20%nat, [0; 0; 0; (-1); 0; 2; 0; 0; 0; 0; 1; 0; 0; 0; 0; 0; 0; 0; 0]);
  (22%nat, [0; 1; 0; (-2); 0; 4; 0; 0; 0; 0; 0; 0; 0; 0; 0; 0; 0; 0; 0]);
  (24%nat, [0; 0; 0; (-3#2); (1#2); 3; 0; 0; 0; 0; 0; 0; 0; 0; 0; 0; 0; 0; 0]);
  (25%nat, [0; 0; 0; (-1); 0; 2; 1; 0; 0; 0; 0; 0; 0; 0; 0; 0; 0; 0; 0]);
  (26%nat, [0; 0; 0; (-1); 0; 3; 0; 0; 0; 0; 0; 0; 0; 0; 0; 0; 0; 0; 0]);
  (27%nat, [0; 0; 0; (-1); 0; 2; 0; 0; 0; 1; 0; 0; 0; 0; 0; 0; 0; 0; 0]);
  (28%nat, [0; 0; 0; (-1); 0; 2; 0; 0; 1; 0; 0; 0; 0; 0; 0; 0; 0; 0; 0])
].

Definition cert_melts : list (nat * list Q) := [
  (1%nat, [(-1#2); 0; 0; (-1#2); 0; (1#2); 0; 0; 0; 0; 0; 0; 0; 0; 0; 0; 0; 0; (1#2)]);
  (6%nat, [(-2); 0; 0; (-2); 0; 2; 0; 0; 0; 0; 0; 0; 0; 0; 1; 0; 0; 0; 0]);
  (8%nat, [1; 0; 0; 1; 0; (-1); 0; 0; 0; 0; 0; 0; 0; 0; 0; 0; 0; 0; 0]);
  (9%nat, [(1#2); 0; 0; (1#2); 0; (-1#2); 0; 0; 0; 0; 0; 0; 0; 0; 0; 0; 0; (1#2); 0]);
  (11%nat, [(-1); 0; 0; (-1#2); 0; (1#2); 0; 0; 0; 0; 0; (1#2); 0; 0; 0; 0; 0; 0; 0]);
  (12%nat, [(-3#2); 0; 0; (-1); 0; 1; 0; (1#2); 0; 0; 0; 0; 0; 0; 0; 0; 0; 0; 0]);
  (13%nat, [(-3#2); 0; (1#2); (-3#2); 0; (3#2); 0; 0; 0; 0; 0; 0; 0; 0; 0; 0; 0; 0; 0]);
  (14%nat, [(-1); 0; 0; (-2); 0; 2; 0; 0; 0; 0; 0; 0; 0; 0; 0; 0; 0; 0; 0]);
  (15%nat, [(-1); 0; 0; (-5#2); 0; (5#2); 0; 0; 0; 0; (-3#2); 0; 0; (1#2); 0; 0; 0; 0; 0]);
  (16%nat, [(-3); 0; 0; (-3); 0; 3; 0; 0; 0; 0; 0; 0; 0; 0; 0; 1; 0; 0; 0]);
  (17%nat, [(1#2); 0; 0; (1#2); 0; (-1#2); 0; 0; 0; 0; 0; 0; 0; 0; 0; 0; (1#2); 0; 0]);
  (19%nat, [(-3#2); 0; (-1#2); (-1#2); 0; (1#2); 0; 0; 0; 0; 0; 0; 1; 0; 0; 0; 0; 0; 0]);
  (20%nat, [(-2); 0; 0; (-1); 0; 1; 0; 0; 0; 0; 1; 0; 0; 0; 0; 0; 0; 0; 0]);
  (22%nat, [(-2); 1; 0; (-2); 0; 2; 0; 0; 0; 0; 0; 0; 0; 0; 0; 0; 0; 0; 0]);
  (24%nat, [(-5#4); 0; 0; (-3#2); (1#2); (3#2); 0; (-1#4); 0; 0; 0; 0; 0; 0; 0; 0; 0; 0; 0]);
  (25%nat, [(-3#2); 0; 0; (-1); 0; 1; 1; 0; 0; 0; 0; 0; 0; 0; 0; 0; 0; 0; 0]);
  (26%nat, [(-3#2); 0; 0; (-1); 0; (3#2); 0; 0; 0; 0; 0; 0; 0; 0; 0; 0; 0; 0; 0]);
  (27%nat, [(-3#2); 0; 0; (-1); 0; 1; 0; 0; 0; 1; 0; 0; 0; 0; 0; 0; 0; 0; 0]);
  (28%nat, [(-3#2); 0; 0; (-1); 0; 1; 0; 0; 1; 0; 0; 0; 0; 0; 0; 0; 0; 0; 0])
].

Definition cert_pMelts : list (nat * list Q) := [
  (1%nat, [(-1#8); 0; 0; (-1#2); 0; (1#2); 0; 0; 0; 0; 0; 0; 0; 0; 0; 0; 0; 0; (1#2)]);
  (6%nat, [(-1#2); 0; 0; (-2); 0; 2; 0; 0; 0; 0; 0; 0; 0; 0; 1; 0; 0; 0; 0]);
  (8%nat, [(1#4); 0; 0; 1; 0; (-1); 0; 0; 0; 0; 0; 0; 0; 0; 0; 0; 0; 0; 0]);
  (9%nat, [(1#8); 0; 0; (1#2); 0; (-1#2); 0; 0; 0; 0; 0; 0; 0; 0; 0; 0; 0; (1#2); 0]);
  (11%nat, [(-1#4); 0; 0; (-1#2); 0; (1#2); 0; 0; 0; 0; 0; 1; 0; 0; 0; 0; 0; 0; 0]);
  (12%nat, [(-3#8); 0; 0; (-1); 0; 1; 0; (1#2); 0; 0; 0; 0; 0; 0; 0; 0; 0; 0; 0]);
  (13%nat, [(-3#8); 0; (1#4); (-3#2); 0; (3#2); 0; 0; 0; 0; 0; 0; 0; 0; 0; 0; 0; 0; 0]);
  (14%nat, [(-1#4); 0; 0; (-2); 0; 2; 0; 0; 0; 0; 0; 0; 0; 0; 0; 0; 0; 0; 0]);
  (15%nat, [(-1#4); 0; 0; (-5#2); 0; (5#2); 0; 0; 0; 0; (-3#4); 0; 0; (1#2); 0; 0; 0; 0; 0]);
  (16%nat, [(-3#4); 0; 0; (-3); 0; 3; 0; 0; 0; 0; 0; 0; 0; 0; 0; 1; 0; 0; 0]);
  (17%nat, [(1#8); 0; 0; (1#2); 0; (-1#2); 0; 0; 0; 0; 0; 0; 0; 0; 0; 0; (1#2); 0; 0]);
  (19%nat, [(-3#8); 0; (-1#4); (-1#2); 0; (1#2); 0; 0; 0; 0; 0; 0; 1; 0; 0; 0; 0; 0; 0]);
  (20%nat, [(-1#2); 0; 0; (-1); 0; 1; 0; 0; 0; 0; (1#2); 0; 0; 0; 0; 0; 0; 0; 0]);
  (22%nat, [(-1#2); 1; 0; (-2); 0; 2; 0; 0; 0; 0; 0; 0; 0; 0; 0; 0; 0; 0; 0]);
  (24%nat, [(-5#16); 0; 0; (-3#2); (1#2); (3#2); 0; (-1#4); 0; 0; 0; 0; 0; 0; 0; 0; 0; 0; 0]);
  (25%nat, [(-3#8); 0; 0; (-1); 0; 1; 1; 0; 0; 0; 0; 0; 0; 0; 0; 0; 0; 0; 0]);
  (26%nat, [(-3#8); 0; 0; (-1); 0; (3#2); 0; 0; 0; 0; 0; 0; 0; 0; 0; 0; 0; 0; 0]);
  (27%nat, [(-3#8); 0; 0; (-1); 0; 1; 0; 0; 0; 1; 0; 0; 0; 0; 0; 0; 0; 0; 0]);
  (28%nat, [(-3#8); 0; 0; (-1); 0; 1; 0; 0; 1; 0; 0; 0; 0; 0; 0; 0; 0; 0; 0])
].
