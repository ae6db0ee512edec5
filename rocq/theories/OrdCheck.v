(** Every energy formula of the phases with ordering parameters is the exact
    partial derivative it is used as: a verified symbolic check, evaluated by
    the kernel for each phase. *)
From Coq Require Import Reals QArith Qreals ZArith NArith Arith List Lia Bool.
From Coquelicot Require Import Coquelicot.
From Verif Require Import Sym SymNorm SymPath SolnModel OrdModel OrdData.
Import List ListNotations.

(** the variables of the formulas: temperature, pressure, r[i], s[k] *)
Inductive var : Type := vT | vP | vR (i : nat) | vS (k : nat).
Definition code (v : var) : N :=
  match v with vT => 0 | vP => 1 | vR i => N.of_nat (2 + i) | vS k => N.of_nat (40 + k) end.

Section Tables.
Variable ph : ordPhase.
(** first, second and third derivatives of G, as the code has them *)
Definition d1 (v : var) : expr :=
  match v with vT => Neg (o_s ph) | vP => o_v ph | vR i => nth1 (o_r1 ph) i | vS k => nth1 (o_s1 ph) k end.
Definition d2 (v w : var) : expr :=
  match v, w with
  | vR i, vR j => nth2 (o_rr ph) i j
  | vR i, vS k | vS k, vR i => nth2 (o_rs ph) i k
  | vR i, vT | vT, vR i => nth1 (o_rt ph) i
  | vR i, vP | vP, vR i => nth1 (o_rp ph) i
  | vS k, vS l => nth2 (o_ss ph) k l
  | vS k, vT | vT, vS k => nth1 (o_st ph) k
  | vS k, vP | vP, vS k => nth1 (o_sp ph) k
  | vT, vT => o_tt ph | vT, vP | vP, vT => o_tp ph | vP, vP => o_pp ph
  end.
Definition d3 (u v w : var) : expr :=
  match u, v, w with
  | vR i, vR j, vR k => nth3 (o_rrr ph) i j k
  | vR i, vR j, vS k | vR i, vS k, vR j | vS k, vR i, vR j => nth3 (o_rrs ph) i j k
  | vR i, vR j, vT | vR i, vT, vR j | vT, vR i, vR j => nth2 (o_rrt ph) i j
  | vR i, vR j, vP | vR i, vP, vR j | vP, vR i, vR j => nth2 (o_rrp ph) i j
  | vR i, vS k, vS l | vS k, vR i, vS l | vS k, vS l, vR i => nth3 (o_rss ph) i k l
  | vR i, vS k, vT | vR i, vT, vS k | vS k, vR i, vT | vS k, vT, vR i | vT, vR i, vS k | vT, vS k, vR i => nth2 (o_rst ph) i k
  | vR i, vS k, vP | vR i, vP, vS k | vS k, vR i, vP | vS k, vP, vR i | vP, vR i, vS k | vP, vS k, vR i => nth2 (o_rsp ph) i k
  | vR i, vT, vT | vT, vR i, vT | vT, vT, vR i => nth1 (o_rtt ph) i
  | vR i, vT, vP | vR i, vP, vT | vT, vR i, vP | vP, vR i, vT | vT, vP, vR i | vP, vT, vR i => nth1 (o_rtp ph) i
  | vR i, vP, vP | vP, vR i, vP | vP, vP, vR i => nth1 (o_rpp ph) i
  | vS k, vS l, vS m => nth3 (o_sss ph) k l m
  | vS k, vS l, vT | vS k, vT, vS l | vT, vS k, vS l => nth2 (o_sst ph) k l
  | vS k, vS l, vP | vS k, vP, vS l | vP, vS k, vS l => nth2 (o_ssp ph) k l
  | vS k, vT, vT | vT, vS k, vT | vT, vT, vS k => nth1 (o_stt ph) k
  | vS k, vT, vP | vS k, vP, vT | vT, vS k, vP | vP, vS k, vT | vT, vP, vS k | vP, vT, vS k => nth1 (o_stp ph) k
  | vS k, vP, vP | vP, vS k, vP | vP, vP, vS k => nth1 (o_spp ph) k
  | vT, vT, vT => o_ttt ph
  | vT, vT, vP | vT, vP, vT | vP, vT, vT => o_ttp ph
  | vT, vP, vP | vP, vT, vP | vP, vP, vT => o_tpp ph
  | vP, vP, vP => o_ppp ph
  end.

(** the variables of this phase, in order *)
Definition nvars : nat := (2 + o_nr ph + o_ns ph)%nat.
Definition varAt (a : nat) : var :=
  match a with O => vT | S O => vP | S (S i) => if (i <? o_nr ph)%nat then vR i else vS (i - o_nr ph) end.
Definition codes (a : nat) : N := code (varAt a).
Definition pos0 : list N := [0%N].
Definition upto : list nat := seq 0 nvars.
Notation dc := (deriveCheck (o_sites ph) pos0 []).
Notation sc := (sameCheck (o_sites ph) pos0 []).
Definition fits (x : expr) : bool := domOk (o_sites ph) pos0 x && varsIn codes nvars x.
Definition check0 : bool :=
  sitesOk (o_sites ph) && sitesIn (o_sites ph) codes nvars && distinct codes nvars && (1 <=? o_ns ph)%nat && (o_nr ph <? 38)%nat &&
  match o_method ph with Inverse => (o_ns ph =? 1)%nat | _ => true end.
Definition check1 : bool :=
  fits (o_g ph) && forallb (fun a => fits (d1 (varAt a)) && dc (codes a) (o_g ph) (d1 (varAt a))) upto.
Definition check2 : bool :=
  forallb (fun a => forallb (fun b => fits (d2 (varAt a) (varAt b)) && dc (codes b) (d1 (varAt a)) (d2 (varAt a) (varAt b))
    && sc (d2 (varAt a) (varAt b)) (d2 (varAt b) (varAt a))) upto) upto.
Definition check3 : bool :=
  forallb (fun a => forallb (fun b => forallb (fun c => fits (d3 (varAt a) (varAt b) (varAt c)) &&
    dc (codes c) (d2 (varAt a) (varAt b)) (d3 (varAt a) (varAt b) (varAt c)) &&
    sc (d3 (varAt a) (varAt b) (varAt c)) (d3 (varAt b) (varAt a) (varAt c)) && sc (d3 (varAt a) (varAt b) (varAt c)) (d3 (varAt a) (varAt c) (varAt b))) upto) upto) upto.
Definition checkEnds : bool :=
  match o_ends ph with
  | None => true
  | Some (x, l) => (length l =? o_nr ph)%nat && forallb (fun i => deriveCheck [] [] [] (N.of_nat (2 + i)) x (nth1 l i)) (seq 0 (o_nr ph))
  end.
End Tables.
