(** Solution phases with ordering parameters s[0..NS-1] (amphibole.c,
    biotiteTaj.c, clinopyroxene.c, cummingtonite.c, melilite.c, nepheline.c,
    olivine.c, ortho-oxide.c, orthopyroxene.c, rhombohedral.c, spinel.c): the
    derivatives of the ordering state returned by order() and the public
    functions gmix, hmix, smix, cpmix and vmix. The loops are textually the
    same in the eleven files; line numbers cite sources/cummingtonite.c.
    A loop  x = a; for (k=0; k<NS; k++) x += f(k);  is  a + sum NS f.
    The energy formulas themselves are in OrdData.v. Numbers are real. *)
From Coq Require Import Reals QArith Qreals ZArith NArith Arith List String.
From Verif Require Import Sym SolnModel LaSpec LuModel.
Import List ListNotations.

(** how order() solves linear systems with minus the Hessian d2gds2:
    melts_LU_decomp and melts_LU_solve (most phases); gsl_linalg_SV_solve
    (olivine.c, USE_SVD 1); the inverse computed by gaussj (biotiteTaj.c) *)
Inductive method : Type := LU | SVD | Inverse.

Record ordPhase : Type := mkOrd {
  o_file : string; o_na : nat; o_nr : nat; o_ns : nat; o_method : method; o_swap : bool;
  o_sites : list site;
  o_ends : option (expr * list expr);                                   (* ENDMEMBERS, DENDDRi *)
  o_g : expr; o_s : expr; o_v : expr;                                   (* G, S, DGDP *)
  o_r1 : list expr; o_s1 : list expr;                                   (* DGDRi, DGDSi *)
  o_rr : list (list expr); o_rs : list (list expr); o_rt : list expr; o_rp : list expr;
  o_ss : list (list expr); o_st : list expr; o_sp : list expr;
  o_rrr : list (list (list expr)); o_rrs : list (list (list expr)); o_rrt : list (list expr); o_rrp : list (list expr);
  o_rss : list (list (list expr)); o_rst : list (list expr); o_rsp : list (list expr);
  o_sss : list (list (list expr)); o_sst : list (list expr); o_ssp : list (list expr);
  o_stt : list expr; o_stp : list expr; o_spp : list expr;
  o_rtt : list expr; o_rtp : list expr; o_rpp : list expr;
  o_tt : expr; o_tp : expr; o_pp : expr; o_ttt : expr; o_ttp : expr; o_tpp : expr; o_ppp : expr }.

Local Open Scope R_scope.
(** the point at which the macros are evaluated: t, p, r[i], s[k] *)
Definition opt (t p : R) (r s : nat -> R) : env :=
  fun n => match n with 0%N => t | 1%N => p | _ => if N.ltb n 40 then r (N.to_nat n - 2)%nat else s (N.to_nat n - 40)%nat end.

(** what the linear algebra library promises: slv b is what the solver returns
    for the right-hand side b, A is the matrix it was given. For LU it is the
    code of melts_linalg.c (LuModel); for SVD the manual of the GNU Scientific
    Library (a nonsingular system is solved); gaussj replaces the 1x1 matrix
    d2gds2 by its inverse, and -d2gds2[i][k]*b[k] is summed over k. *)
Definition library (m : method) (n : nat) (A : mat) (slv : vec -> vec) : Prop :=
  match m with
  | LU => exists F p, decomp n A F p /\ forall b, slv b = solve n F p b
  | SVD => forall b i, (i < n)%nat -> apply n A (slv b) i = b i
  | Inverse => forall b, slv b O = / A O O * b O
  end.

Section Api.
Variable ph : ordPhase.
Notation NS := (o_ns ph).
(** the ordering state order() finds, and what its solver returns, at (t, p, r) *)
Variable sv : R -> R -> (nat -> R) -> nat -> R.
Variable slv : R -> R -> (nat -> R) -> vec -> vec.
Section At.
Variables (t p : R) (r : nat -> R).
Definition ev (x : expr) : R := denote (o_sites ph) (opt t p r (sv t p r)) x.
Definition v1 (l : list expr) (i : nat) : R := ev (nth1 l i).
Definition v2 (l : list (list expr)) (i j : nat) : R := ev (nth2 l i j).
Definition v3 (l : list (list (list expr))) (i j k : nat) : R := ev (nth3 l i j k).
Notation linsolve := (slv t p r).
(** gsl_matrix_scale(ptToD2gds2, -1.0): the matrix that is factored, 762-764 *)
Definition negHess : mat := fun k l => - v2 (o_ss ph) k l.

(** order, masks SECOND, THIRD, FOURTH (829-872): dr[k][j], dt[k], dp[k] *)
Definition dsdr (k j : nat) : R := linsolve (fun l => v2 (o_rs ph) j l) k.
Definition dsdt (k : nat) : R := linsolve (fun l => v1 (o_st ph) l) k.
Definition dsdp (k : nat) : R := linsolve (fun l => v1 (o_sp ph) l) k.
(** order, mask FIFTH (873-913): dr2[l][j][k] *)
Definition d2sdr2 (l j k : nat) : R :=
  linsolve (fun l => v3 (o_rrs ph) j k l + sum NS (fun m =>
     v3 (o_rss ph) j l m * dsdr m k + v3 (o_rss ph) k l m * dsdr m j
     + sum NS (fun n => v3 (o_sss ph) l m n * dsdr m j * dsdr n k))) l.
(** order, mask SIXTH (914-952): drt[k][j] *)
Definition d2sdrdt (k j : nat) : R :=
  linsolve (fun k => v2 (o_rst ph) j k + sum NS (fun l =>
     v3 (o_rss ph) j k l * dsdt l + v2 (o_sst ph) k l * dsdr l j
     + sum NS (fun m => v3 (o_sss ph) k l m * dsdr l j * dsdt m))) k.
(** order, mask SEVENTH (953-992): drp[k][j] *)
Definition d2sdrdp (k j : nat) : R :=
  linsolve (fun k => v2 (o_rsp ph) j k + sum NS (fun l =>
     v3 (o_rss ph) j k l * dsdp l + v2 (o_ssp ph) k l * dsdr l j
     + sum NS (fun m => v3 (o_sss ph) k l m * dsdr l j * dsdp m))) k.
(** order, mask EIGHTH (993-1020): dt2[j] *)
Definition d2sdt2 (j : nat) : R :=
  linsolve (fun j => v1 (o_stt ph) j + sum NS (fun k =>
     2 * v2 (o_sst ph) j k * dsdt k + sum NS (fun l => v3 (o_sss ph) j k l * dsdt k * dsdt l))) j.
(** order, mask NINTH (1021-1058): dtp[j] *)
Definition d2sdtdp (j : nat) : R :=
  linsolve (fun j => v1 (o_stp ph) j + sum NS (fun k =>
     v2 (o_sst ph) j k * dsdp k + v2 (o_ssp ph) j k * dsdt k + sum NS (fun l => v3 (o_sss ph) j k l * dsdt k * dsdp l))) j.
(** order, mask TENTH (1059-1087): dp2[j] *)
Definition d2sdp2 (j : nat) : R :=
  linsolve (fun j => v1 (o_spp ph) j + sum NS (fun k =>
     2 * v2 (o_ssp ph) j k * dsdp k + sum NS (fun l => v3 (o_sss ph) j k l * dsdp k * dsdp l))) j.

(** gmixCum (1451-1532), before end members are subtracted *)
Definition og : R := ev (o_g ph).
Definition og_dx (i : nat) : R := v1 (o_r1 ph) i.
Definition og_dx2 (i j : nat) : R :=
  v2 (o_rr ph) i j + sum NS (fun k => v2 (o_rs ph) i k * dsdr k j + v2 (o_rs ph) j k * dsdr k i
    + sum NS (fun l => v2 (o_ss ph) k l * dsdr k i * dsdr l j)).
Definition og_dx3 (i j k : nat) : R :=
  v3 (o_rrr ph) i j k + sum NS (fun l =>
    v3 (o_rrs ph) i j l * dsdr l k + v3 (o_rrs ph) j k l * dsdr l i + v3 (o_rrs ph) k i l * dsdr l j
    + sum NS (fun m => v3 (o_rss ph) i l m * dsdr l j * dsdr m k + v3 (o_rss ph) j l m * dsdr l k * dsdr m i + v3 (o_rss ph) k l m * dsdr l i * dsdr m j
       + sum NS (fun n => v3 (o_sss ph) l m n * dsdr l i * dsdr m j * dsdr n k))).
(** hmixCum (1533-1548) *)
Definition os : R := ev (o_s ph).
Definition oh : R := og + t * os.
(** smixCum (1550-1640) *)
Definition os_dx (i : nat) : R :=
  (v1 (o_rt ph) i + sum NS (fun k => v2 (o_rs ph) i k * dsdt k + v1 (o_st ph) k * dsdr k i
    + sum NS (fun l => v2 (o_ss ph) k l * dsdt k * dsdr l i))) * -1.
Definition os_dx2 (i j : nat) : R :=
  (v2 (o_rrt ph) i j + sum NS (fun k =>
     v3 (o_rrs ph) i j k * dsdt k + v2 (o_rst ph) i k * dsdr k j + v2 (o_rst ph) j k * dsdr k i + v1 (o_st ph) k * d2sdr2 k i j
     + v2 (o_rs ph) i k * d2sdrdt k j + v2 (o_rs ph) j k * d2sdrdt k i
     + sum NS (fun l => v3 (o_rss ph) i k l * dsdr k j * dsdt l + v3 (o_rss ph) j k l * dsdr k i * dsdt l
        + v2 (o_ss ph) k l * d2sdr2 k i j * dsdt l + v2 (o_sst ph) k l * dsdr k i * dsdr l j
        + v2 (o_ss ph) k l * dsdr k i * d2sdrdt l j
        + (if o_swap ph then v2 (o_ss ph) k l * dsdr l j * d2sdrdt k i else v2 (o_ss ph) k l * dsdr k j * d2sdrdt l i)
        + sum NS (fun m => v3 (o_sss ph) k l m * dsdr k i * dsdr l j * dsdt m)))) * -1.
(** cpmixCum (1642-1737) *)
Definition hessTT : R :=
  ev (o_tt ph) + sum NS (fun i => 2 * v1 (o_st ph) i * dsdt i + sum NS (fun j => v2 (o_ss ph) i j * dsdt i * dsdt j)).
Definition oc : R := hessTT * - t.
Definition oc_dt : R :=
  - t * (ev (o_ttt ph) + sum NS (fun i => 3 * v1 (o_stt ph) i * dsdt i + 3 * v1 (o_st ph) i * d2sdt2 i
      + sum NS (fun j => 3 * v2 (o_ss ph) i j * dsdt i * d2sdt2 j + 3 * v2 (o_sst ph) i j * dsdt i * dsdt j
         + sum NS (fun k => v3 (o_sss ph) i j k * dsdt i * dsdt j * dsdt k)))) - hessTT.
Definition oc_dx (i : nat) : R :=
  (v1 (o_rtt ph) i + sum NS (fun j =>
     v1 (o_stt ph) j * dsdr j i + 2 * v1 (o_st ph) j * d2sdrdt j i + 2 * v2 (o_rst ph) i j * dsdt j + v2 (o_rs ph) i j * d2sdt2 j
     + sum NS (fun k => v3 (o_rss ph) i j k * dsdt j * dsdt k + 2 * v2 (o_ss ph) j k * dsdt j * d2sdrdt k i
        + 2 * v2 (o_sst ph) j k * dsdr j i * dsdt k + v2 (o_ss ph) j k * dsdr j i * d2sdt2 k
        + sum NS (fun l => v3 (o_sss ph) j k l * dsdr j i * dsdt k * dsdt l)))) * - t.
(** vmixCum (1739-2020) *)
Definition ov : R := ev (o_v ph).
Definition ov_dx (i : nat) : R :=
  v1 (o_rp ph) i + sum NS (fun j => v2 (o_rs ph) i j * dsdp j + v1 (o_sp ph) j * dsdr j i
    + sum NS (fun k => v2 (o_ss ph) j k * dsdp j * dsdr k i)).
Definition ov_dx2 (i j : nat) : R :=
  v2 (o_rrp ph) i j + sum NS (fun k =>
     v3 (o_rrs ph) i j k * dsdp k + v2 (o_rsp ph) i k * dsdr k j + v2 (o_rsp ph) j k * dsdr k i + v1 (o_sp ph) k * d2sdr2 k i j
     + v2 (o_rs ph) i k * d2sdrdp k j + v2 (o_rs ph) j k * d2sdrdp k i
     + sum NS (fun l => v3 (o_rss ph) i k l * dsdr k j * dsdp l + v3 (o_rss ph) j k l * dsdr k i * dsdp l
        + v2 (o_ss ph) k l * d2sdr2 k i j * dsdp l + v2 (o_ssp ph) k l * dsdr k i * dsdr l j
        + v2 (o_ss ph) k l * dsdr k i * d2sdrdp l j + v2 (o_ss ph) k l * dsdr k j * d2sdrdp l i
        + sum NS (fun m => v3 (o_sss ph) k l m * dsdr k i * dsdr l j * dsdp m))).
Definition ov_dt : R :=
  ev (o_tp ph) + sum NS (fun i => v1 (o_st ph) i * dsdp i + v1 (o_sp ph) i * dsdt i + sum NS (fun j => v2 (o_ss ph) i j * dsdt i * dsdp j)).
Definition ov_dp : R :=
  ev (o_pp ph) + sum NS (fun i => 2 * v1 (o_sp ph) i * dsdp i + sum NS (fun j => v2 (o_ss ph) i j * dsdp i * dsdp j)).
Definition ov_dt2 : R :=
  ev (o_ttp ph) + sum NS (fun i =>
     v1 (o_stt ph) i * dsdp i + 2 * v1 (o_st ph) i * d2sdtdp i + v1 (o_sp ph) i * d2sdt2 i + 2 * v1 (o_stp ph) i * dsdt i
     + sum NS (fun j => 2 * v2 (o_sst ph) i j * dsdt i * dsdp j + v2 (o_ss ph) i j * d2sdt2 i * dsdp j
        + 2 * v2 (o_ss ph) i j * dsdt i * d2sdtdp j + v2 (o_ssp ph) i j * dsdt i * dsdt j
        + sum NS (fun k => v3 (o_sss ph) i j k * dsdt i * dsdt j * dsdp k))).
Definition ov_dtdp : R :=
  ev (o_tpp ph) + sum NS (fun i =>
     2 * v1 (o_stp ph) i * dsdp i + v1 (o_st ph) i * d2sdp2 i + 2 * v1 (o_sp ph) i * d2sdtdp i + v1 (o_spp ph) i * dsdt i
     + sum NS (fun j => 2 * v2 (o_ssp ph) i j * dsdt i * dsdp j + v2 (o_ss ph) i j * dsdt i * d2sdp2 j
        + 2 * v2 (o_ss ph) i j * d2sdtdp i * dsdp j + v2 (o_sst ph) i j * dsdp i * dsdp j
        + sum NS (fun k => v3 (o_sss ph) i j k * dsdt i * dsdp j * dsdp k))).
Definition ov_dp2 : R :=
  ev (o_ppp ph) + sum NS (fun i => 3 * v1 (o_spp ph) i * dsdp i + 3 * v1 (o_sp ph) i * d2sdp2 i
     + sum NS (fun j => 3 * v2 (o_ss ph) i j * dsdp i * d2sdp2 j + 3 * v2 (o_ssp ph) i j * dsdp i * dsdp j
        + sum NS (fun k => v3 (o_sss ph) i j k * dsdp i * dsdp j * dsdp k))).
Definition ov_dxdt (i : nat) : R :=
  v1 (o_rtp ph) i + sum NS (fun j =>
     v1 (o_stp ph) j * dsdr j i + v1 (o_st ph) j * d2sdrdp j i + v2 (o_rst ph) i j * dsdp j + v2 (o_rs ph) i j * d2sdtdp j
     + v2 (o_rsp ph) i j * dsdt j + v1 (o_sp ph) j * d2sdrdt j i
     + sum NS (fun k => v3 (o_rss ph) i j k * dsdt j * dsdp k + v2 (o_ss ph) j k * dsdt j * d2sdrdp k i
        + v2 (o_ss ph) j k * dsdp j * d2sdrdt k i + v2 (o_sst ph) j k * dsdr j i * dsdp k
        + v2 (o_ssp ph) j k * dsdr j i * dsdt k + v2 (o_ss ph) j k * dsdr j i * d2sdtdp k
        + sum NS (fun l => v3 (o_sss ph) j k l * dsdr j i * dsdt k * dsdp l))).
Definition ov_dxdp (i : nat) : R :=
  v1 (o_rpp ph) i + sum NS (fun j =>
     v1 (o_spp ph) j * dsdr j i + v1 (o_sp ph) j * d2sdrdp j i + 2 * v2 (o_rsp ph) i j * dsdp j + v2 (o_rs ph) i j * d2sdp2 j
     + v1 (o_sp ph) j * d2sdrdp j i
     + sum NS (fun k => v3 (o_rss ph) i j k * dsdp j * dsdp k + 2 * v2 (o_ss ph) j k * dsdp j * d2sdrdp k i
        + 2 * v2 (o_ssp ph) j k * dsdr j i * dsdp k + v2 (o_ss ph) j k * dsdr j i * d2sdp2 k
        + sum NS (fun l => v3 (o_sss ph) j k l * dsdr j i * dsdp k * dsdp l))).
End At.

(** ** End members. pureXxx returns, for each end member, its Gibbs energy,
    enthalpy, entropy, heat capacity and its derivative, volume and its
    derivatives at (t, p) (its own ordering state is solved separately and is
    not modelled: these are arbitrary functions here). ENDMEMBERS combines the
    values with the composition and is subtracted from the result
    (sources/melilite.c 2216-2223 and the like); DENDDRi from dx[i]. *)
Variable ends : nat -> R -> R -> nat -> R.
(** which output of pureXxx: 0 g, 1 h, 2 s, 3 cp, 4 dcp/dt, 5 v, 6 dv/dt, 7 dv/dp, 8 d2v/dt2, 9 d2v/dtdp, 10 d2v/dp2 *)
Definition endEnv (r : nat -> R) (en : nat -> R) : env :=
  fun n => if N.ltb n 2 then 0 else if N.ltb n 60 then r (N.to_nat n - 2)%nat else en (N.to_nat n - 60)%nat.
Definition endTerm (q : nat) (t p : R) (r : nat -> R) : R :=
  match o_ends ph with None => 0 | Some (x, _) => denote [] (endEnv r (ends q t p)) x end.
Definition endTerm_dx (q i : nat) (t p : R) (r : nat -> R) : R :=
  match o_ends ph with None => 0 | Some (_, l) => denote [] (endEnv r (ends q t p)) (nth1 l i) end.

Definition gmixO t p r := og t p r - endTerm 0 t p r.
Definition gmixO_dx i t p r := og_dx t p r i - endTerm_dx 0 i t p r.
Definition gmixO_dx2 i j t p r := og_dx2 t p r i j.
Definition gmixO_dx3 i j k t p r := og_dx3 t p r i j k.
Definition hmixO t p r := oh t p r - endTerm 1 t p r.
Definition smixO t p r := os t p r - endTerm 2 t p r.
Definition smixO_dx i t p r := os_dx t p r i - endTerm_dx 2 i t p r.
Definition smixO_dx2 i j t p r := os_dx2 t p r i j.
Definition cpmixO t p r := oc t p r - endTerm 3 t p r.
Definition cpmixO_dt t p r := oc_dt t p r - endTerm 4 t p r.
Definition cpmixO_dx i t p r := oc_dx t p r i - endTerm_dx 3 i t p r.
Definition vmixO t p r := ov t p r - endTerm 5 t p r.
Definition vmixO_dx i t p r := ov_dx t p r i - endTerm_dx 5 i t p r.
Definition vmixO_dx2 i j t p r := ov_dx2 t p r i j.
Definition vmixO_dt t p r := ov_dt t p r - endTerm 6 t p r.
Definition vmixO_dp t p r := ov_dp t p r - endTerm 7 t p r.
Definition vmixO_dt2 t p r := ov_dt2 t p r - endTerm 8 t p r.
Definition vmixO_dtdp t p r := ov_dtdp t p r - endTerm 9 t p r.
Definition vmixO_dp2 t p r := ov_dp2 t p r - endTerm 10 t p r.
Definition vmixO_dxdt i t p r := ov_dxdt t p r i - endTerm_dx 6 i t p r.
Definition vmixO_dxdp i t p r := ov_dxdp t p r i - endTerm_dx 7 i t p r.
End Api.
