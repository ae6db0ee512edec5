(** Model of the standard-state property code of sources/gibbs.c.
    [double] is modelled by exact reals: rounding, overflow and NaN are not modelled.
    The C code accumulates into *g, *h, ...; here each contribution is a record and
    [tplus] is the accumulation. *)
From Coq Require Import Reals Lra List Bool Lia.
From Verif Require Import RealTac EosSpec.
Local Open Scope R_scope.

(** the "+=" on the eleven output arguments *)
Definition tplus (a b : thermo) : thermo :=
  mkThermo (tG a + tG b) (tH a + tH b) (tS a + tS b) (tCp a + tCp b) (tdCp a + tdCp b)
           (tV a + tV b) (tVt a + tVt b) (tVp a + tVp b) (tVtt a + tVtt b) (tVtp a + tVtp b) (tVpp a + tVpp b).

(** gibbs.c:453-454 (and the same values in gibbs()): reference temperature and pressure *)
Definition tr : R := 298.15.
Definition pr : R := 1.0.

Definition SQUARE (x : R) := x * x.            (* includes/silmin.h SQUARE *)
Definition CUBE (x : R) := x * x * x.          (* includes/silmin.h CUBE *)
Definition QUARTIC (x : R) := x * x * x * x.   (* includes/silmin.h QUARTIC *)

(** ** Reference-state heat capacities *)

(** struct ThermoRef, cp.Berman (includes/silmin.h) *)
Record cpBerman := mkCpBerman { k0 : R; k1 : R; k2 : R; k3 : R; cpT : R; cpH : R; l1 : R; l2 : R }.

(** gibbs.c:2475-2519: hs, ss, cps, dcpsdt of the Berman heat capacity, lambda transition included *)
Definition berman_cp (h0 s0 : R) (c : cpBerman) (t : R) : thermo :=
  let cps := k0 c + k1 c / sqrt t + k2 c / SQUARE t + k3 c / CUBE t in
  let dcps := - (0.5 * k1 c / Rpower t 1.5) - 2.0 * k2 c / CUBE t - 3.0 * k3 c / QUARTIC t in
  let hs := h0 + k0 c * (t - tr) + 2.0 * k1 c * (sqrt t - sqrt tr)
            - k2 c * (1.0 / t - 1.0 / tr) - 0.5 * k3 c * (1.0 / (t*t) - 1.0 / (tr*tr)) in
  let ss := s0 + k0 c * ln (t / tr)
            - 2.0 * k1 c * (1.0 / sqrt t - 1.0 / sqrt tr)
            - 0.5 * k2 c * (1.0 / (t*t) - 1.0 / (tr*tr))
            - (1.0/3.0) * k3 c * (1.0 / (t*t*t) - 1.0 / (tr*tr*tr)) in
  let '(hs, ss, cps, dcps) :=
    if Req_EM_T (cpT c) 0.0 then (hs, ss, cps, dcps)
    else if Rlt_dec (cpT c) t then
      (hs + cpH c + 0.5 * l1 c * l1 c * (cpT c * cpT c - tr*tr)
         + (2.0/3.0) * l1 c * l2 c * (cpT c * cpT c * cpT c - tr*tr*tr)
         + 0.25 * l2 c * l2 c * (cpT c * cpT c * cpT c * cpT c - tr*tr*tr*tr),
       ss + cpH c / cpT c + l1 c * l1 c * (cpT c - tr)
         + l1 c * l2 c * (cpT c * cpT c - tr*tr)
         + (1.0/3.0) * l2 c * l2 c * (cpT c * cpT c * cpT c - tr*tr*tr), cps, dcps)
    else
      (hs + 0.5 * l1 c * l1 c * (t*t - tr*tr) + (2.0/3.0) * l1 c * l2 c * (t*t*t - tr*tr*tr)
         + 0.25 * l2 c * l2 c * (t*t*t*t - tr*tr*tr*tr),
       ss + l1 c * l1 c * (t - tr) + l1 c * l2 c * (t*t - tr*tr)
         + (1.0/3.0) * l2 c * l2 c * (t*t*t - tr*tr*tr),
       cps + t * SQUARE (l1 c + l2 c * t),
       dcps + (SQUARE (l1 c + l2 c * t) + t * 2.0 * (l1 c + l2 c * t) * l2 c)) in
  mkThermo (hs - t * ss) hs ss cps dcps 0 0 0 0 0 0.

(** struct ThermoRef, cp.Saxena *)
Record cpSaxena := mkCpSaxena { sxa : R; sxb : R; sxc : R; sxd : R; sxe : R; sxg : R; sxh : R }.

(** gibbs.c:2520-2537 *)
Definition saxena_cp (h0 s0 : R) (c : cpSaxena) (t : R) : thermo :=
  let cps := sxa c + sxb c * t + sxc c / SQUARE t + sxd c * SQUARE t + sxe c / CUBE t + sxg c / sqrt t + sxh c / t in
  let hs := h0 + sxa c * (t - tr) + (sxb c / 2.0) * (SQUARE t - SQUARE tr) - sxc c * (1.0/t - 1.0/tr)
            + (sxd c / 3.0) * (CUBE t - CUBE tr) - (sxe c / 2.0) * (1.0/SQUARE t - 1.0/SQUARE tr)
            + 2.0 * sxg c * (sqrt t - sqrt tr) + sxh c * ln (t/tr) in
  let ss := s0 + sxa c * ln (t/tr) + sxb c * (t - tr) - (sxc c / 2.0) * (1.0/SQUARE t - 1.0/SQUARE tr)
            + (sxd c / 2.0) * (SQUARE t - SQUARE tr) - (sxe c / 3.0) * (1.0/CUBE t - 1.0/CUBE tr)
            - 2.0 * sxg c * (1.0/sqrt t - 1.0/sqrt tr) - sxh c * (1.0/t - 1.0/tr) in
  let dcps := sxb c - 2.0 * sxc c / CUBE t + 2.0 * sxd c * t - 3.0 * sxe c / QUARTIC t
              - (sxg c / 2.0) / Rpower t (3.0/2.0) - sxh c / SQUARE t in
  mkThermo (hs - t * ss) hs ss cps dcps 0 0 0 0 0 0.

(** ** Equations of state: intEOSsolid, gibbs.c:449-705 *)

(** struct ThermoRef, eos.Berman, and the field v *)
Record eosBerman := mkEosBerman { bv0 : R; bv1 : R; bv2 : R; bv3 : R; bv4 : R }.

(** gibbs.c:456-473 *)
Definition berman_eos (c : eosBerman) (t p : R) : thermo :=
  let v0 := bv0 c in let v1 := bv1 c in let v2 := bv2 c in let v3 := bv3 c in let v4 := bv4 c in
  let g := v0*((v1/2.0-v2)*(p*p-pr*pr)+v2*(p*p*p-pr*pr*pr)/3.0 + (1.0-v1+v2+v3*(t-tr)+v4*SQUARE (t-tr))*(p-pr)) in
  mkThermo g
    (v0*((v1/2.0-v2)*(p*p-pr*pr)+v2*(p*p*p-pr*pr*pr)/3.0 + (1.0-v1+v2+v3*(t-tr)+v4*SQUARE (t-tr))*(p-pr))
       - t*v0*(v3 + 2.0*(t-tr)*v4)*(p-pr))
    (- v0*(v3 + 2.0*(t-tr)*v4)*(p-pr))
    (- t*v0*2.0*v4*(p-pr))
    (- v0*2.0*v4*(p-pr))
    (v0*(1.0 + (p-pr)*v1 + (p-pr)*(p-pr)*v2 + (t-tr)*v3 + (t-tr)*(t-tr)*v4))
    (v0*(v3 + 2.0*(t-tr)*v4))
    (v0*(v1 + 2.0*(p-pr)*v2))
    (v0*2.0*v4)
    0.0
    (v0*2.0*v2).

(** struct ThermoRef, eos.Vinet, and the field v *)
Record eosVinet := mkEosVinet { vv0 : R; valpha : R; vK : R; vKp : R }.

(** gibbs.c:479 *)
Definition vinet_eta (c : eosVinet) : R := 3.0*(vKp c - 1.0)/2.0.

(** gibbs.c:487 and 507 (with p = pr): the residual whose zero is the linear compression x *)
Definition vinet_fn (c : eosVinet) (t p x : R) : R :=
  x*x*(p/10000.0) - 3.0*vK c*(1.0-x)*exp (vinet_eta c*(1.0-x)) - x*x*valpha c*vK c*(t-tr).
(** gibbs.c:488 and 508 *)
Definition vinet_dfn (c : eosVinet) (t p x : R) : R :=
  2.0*x*(p/10000.0) + 3.0*vK c*(1.0+vinet_eta c*(1.0-x))*exp (vinet_eta c*(1.0-x)) - 2.0*x*valpha c*vK c*(t-tr).

(** gibbs.c:485-491 and 505-511: do { fn; dfn; x -= fn/dfn; iter++ } while (iter<500 && fn*fn > DBL_EPSILON).
    [vinet_newton fuel x] runs at most [fuel] passes and returns the last x and the residual tested. *)
Definition dbl_epsilon : R := / 2 ^ 52.
Fixpoint vinet_newton (c : eosVinet) (t p : R) (fuel : nat) (x : R) : R * R :=
  let fn := vinet_fn c t p x in
  let x' := x - fn / vinet_dfn c t p x in
  match fuel with
  | O => (x', fn)
  | S n => if Rlt_dec dbl_epsilon (fn*fn) then vinet_newton c t p n x' else (x', fn)
  end.
Definition vinet_solve (c : eosVinet) (t p : R) : R * R := vinet_newton c t p 499 1.0.

(** gibbs.c:492 / 512 *)
Definition vinet_dxdt (c : eosVinet) (x : R) : R :=
  let eta := vinet_eta c in
  - (1.0/3.0)*x*x*x*valpha c*vK c/(vK c*exp (eta*(1.0-x))*(-2.0+x-eta*x+eta*x*x)).
(** gibbs.c:493-496 / 513-516 *)
Definition vinet_d2xdt2 (c : eosVinet) (t p x : R) : R :=
  let eta := vinet_eta c in let K := vK c in let alpha := valpha c in let dxdt := vinet_dxdt c x in
  let e := exp (eta*(1.0-x)) in
  - dxdt*(2.0*(p/10000.0)*dxdt-6.0*K*eta*dxdt*e-3.0*K*eta*eta*dxdt*e+3.0*K*eta*eta*x*dxdt*e
          -4.0*alpha*K*x-2.0*alpha*K*dxdt*(t-tr))
  /(2.0*(p/10000.0)*x+3.0*K*e+3.0*K*eta*e-3.0*K*eta*x*e-2.0*alpha*K*x*(t-tr)).
(** gibbs.c:497 *)
Definition vinet_dxdp (c : eosVinet) (x : R) : R :=
  let eta := vinet_eta c in
  - (1.0/3.0)*x*x*x/(vK c*exp (eta*(1.0-x))*(2.0-x+eta*x-eta*x*x)).
(** gibbs.c:498-500 *)
Definition vinet_d2xdtdp (c : eosVinet) (t p x : R) : R :=
  let eta := vinet_eta c in let K := vK c in let alpha := valpha c in
  let dxdt := vinet_dxdt c x in let dxdp := vinet_dxdp c x in
  let e := exp (eta*(1.0-x)) in
  - (2.0*x*dxdt+2.0*(p/10000.0)*dxdp*dxdt-2.0*alpha*K*dxdp*dxdt*(t-tr)-3.0*K*eta*eta*dxdt*dxdp*e
      -6.0*K*dxdt*eta*dxdp*e-2.0*alpha*K*x*dxdp+3.0*K*eta*eta*dxdt*dxdp*e*x)
  /(2.0*(p/10000.0)*x+3.0*K*e+3.0*K*eta*e-3.0*K*eta*e*x-2.0*alpha*K*x*(t-tr)).
(** gibbs.c:501 *)
Definition vinet_d2xdp2 (c : eosVinet) (x : R) : R :=
  let eta := vinet_eta c in let dxdp := vinet_dxdp c x in let e := exp (eta*(1.0-x)) in
  - dxdp*dxdp*((-6.0+2.0*x-4.0*eta*x+2.0*eta*x*x-eta*eta*x*x+eta*eta*x*x*x)*e)/(x*e*(2.0-x+eta*x-eta*x*x)).

(** gibbs.c:518-533. The values x, x0 found by the two loops are arguments. *)
Definition vinet_eos (c : eosVinet) (x x0 t p : R) : thermo :=
  let v0 := vv0 c in let alpha := valpha c in let K := vK c in let eta := vinet_eta c in
  let dxdt := vinet_dxdt c x in let d2xdt2 := vinet_d2xdt2 c t p x in
  let dxdp := vinet_dxdp c x in let d2xdtdp := vinet_d2xdtdp c t p x in let d2xdp2 := vinet_d2xdp2 c x in
  let dx0dt := vinet_dxdt c x0 in let d2x0dt2 := vinet_d2xdt2 c t pr x0 in
  let a := (9.0*v0*K/(eta*eta))*(1.0 - eta*(1.0-x))*exp (eta*(1.0-x))
           + (v0*(t-tr)*K*alpha*(x*x*x - 1.0) - 9.0*v0*K/(eta*eta))
           - (9.0*v0*K/(eta*eta))*(1.0 - eta*(1.0-x0))*exp (eta*(1.0-x0))
           - (v0*(t-tr)*K*alpha*(x0*x0*x0 - 1.0) - 9.0*v0*K/(eta*eta)) in
  mkThermo
    (- a*10000.0 + p*v0*x*x*x - pr*v0*x0*x0*x0)
    (- a*10000.0 + p*v0*x*x*x - pr*v0*x0*x0*x0 + 10000.0*t*alpha*K*v0*(x*x*x-x0*x0*x0))
    (10000.0*alpha*K*v0*(x*x*x-x0*x0*x0))
    (10000.0*t*alpha*K*v0*3.0*(x*x*dxdt - x0*x0*dx0dt))
    (10000.0*alpha*K*v0*3.0*(x*x*dxdt - x0*x0*dx0dt)
     + 10000.0*t*alpha*K*v0*3.0*(2.0*x*dxdt*dxdt + x*x*d2xdt2 - 2.0*x0*dx0dt*dx0dt - x0*x0*d2x0dt2))
    (v0*x*x*x)
    (3.0*v0*x*x*dxdt)
    (3.0*v0*x*x*dxdp/10000.0)
    (3.0*v0*(2.0*x*dxdt*dxdt + x*x*d2xdt2))
    (3.0*v0*(2.0*x*dxdt*dxdp + x*x*d2xdtdp)/10000.0)
    (3.0*v0*(2.0*x*dxdp*dxdp + x*x*d2xdp2)/(10000.0*10000.0)).

(** ** Liquid components with the Kress polynomial EOS: gibbs.c:1280-1356 *)
(** struct ThermoLiq fields used, plus trl = 1673.0 (gibbs.c, gibbs()) and the fusion cache
    fusion->h, fusion->s (already holding tfus*sfus and sfus). *)
Record liqKress := mkLiqKress {
  lv : R; ldvdt : R; ldvdp : R; ld2vdtp : R; ld2vdp2 : R;
  ltfus : R; ltglass : R; lcp : R; lfh : R; lfs : R }.
Definition trl : R := 1673.0.

(** gibbs.c:1286-1327: hl, sl, cpl, dcpldt before the pressure terms; [c] is the Cp of the solid *)
Definition liq_cp (l : liqKress) (c : cpBerman) (t : R) : R * R * R * R :=
  if Rlt_dec (ltglass l) t then
    (lfh l + lcp l * (t - ltfus l), lfs l + lcp l * ln (t / ltfus l), lcp l, 0.0)
  else
    let tg := ltglass l in
    let hl := lfh l + lcp l * (tg - ltfus l) in
    let sl := lfs l + lcp l * ln (tg / ltfus l) in
    let k0' := k0 c + (lcp l - (k0 c + k1 c / sqrt tg + k2 c / SQUARE tg + k3 c / CUBE tg)) in
    let hl := hl + k0' * (t - tg) + 2.0 * k1 c * (sqrt t - sqrt tg) - k2 c * (1.0/t - 1.0/tg)
              - 0.5 * k3 c * (1.0/SQUARE t - 1.0/SQUARE tg) in
    let sl := sl + k0' * ln (t/tg) - 2.0 * k1 c * (1.0/sqrt t - 1.0/sqrt tg)
              - 0.5 * k2 c * (1.0/SQUARE t - 1.0/SQUARE tg) - (1.0/3.0) * k3 c * (1.0/CUBE t - 1.0/CUBE tg) in
    let cpl := k0' + k1 c / sqrt t + k2 c / (t*t) + k3 c / CUBE t in
    let dcpl := - (0.5 * k1 c / Rpower t 1.5) - 2.0 * k2 c / CUBE t - 3.0 * k3 c / QUARTIC t in
    if Rlt_dec t (cpT c) then
      (hl + 0.5 * l1 c * l1 c * (t*t - cpT c * cpT c) + (2.0/3.0) * l1 c * l2 c * (CUBE t - CUBE (cpT c))
          + 0.25 * l2 c * l2 c * (QUARTIC t - QUARTIC (cpT c)),
       sl + l1 c * l1 c * (t - cpT c) + l1 c * l2 c * (t*t - cpT c * cpT c)
          + (1.0/3.0) * l2 c * l2 c * (CUBE t - CUBE (cpT c)),
       cpl + t * SQUARE (l1 c + l2 c * t),
       dcpl + (SQUARE (l1 c + l2 c * t) + t * 2.0 * (l1 c + l2 c * t) * l2 c))
    else (hl, sl, cpl, dcpl).

(** gibbs.c:1330-1356 *)
Definition kress_liquid (l : liqKress) (c : cpBerman) (t p : R) : thermo :=
  let '(hl, sl, cpl, dcpldt) := liq_cp l c t in
  let gl := hl - t*sl
      + (lv l + ldvdt l*(t-trl))*(p-pr)
      + 0.5*(ldvdp l + (t-trl)*ld2vdtp l)*(p*p-pr*pr)
      - (ldvdp l + (t-trl)*ld2vdtp l)*pr*(p-pr)
      + ld2vdp2 l*((CUBE p - CUBE pr)/6.0 - pr*(p*p-pr*pr)/2.0 + pr*pr*(p-pr)/2.0) in
  let hl' := hl + ((lv l + ldvdt l*(t-trl))*(p-pr)
      + 0.5*(ldvdp l + (t-trl)*ld2vdtp l)*(p*p-pr*pr)
      - (ldvdp l + (t-trl)*ld2vdtp l)*pr*(p-pr)
      + ld2vdp2 l*((CUBE p - CUBE pr)/6.0 - pr*(p*p-pr*pr)/2.0 + pr*pr*(p-pr)/2.0)
      - t*(ldvdt l*(p-pr) + 0.5*ld2vdtp l*(p-pr)*(p-pr))) in
  let sl' := sl + - (ldvdt l*(p-pr) + 0.5*ld2vdtp l*(p-pr)*(p-pr)) in
  mkThermo gl hl' sl' cpl dcpldt
    (lv l + ldvdt l*(t-trl) + (ldvdp l + ld2vdtp l*(t-trl))*(p-pr) + ld2vdp2 l*(0.5*p*p - pr*(p-pr)))
    (ldvdt l + ld2vdtp l*(p-pr))
    (ldvdp l + ld2vdtp l*(t-trl) + ld2vdp2 l*(p-pr))
    0.0
    (ld2vdtp l)
    (ld2vdp2 l).

(** ** Solids, general branch: gibbs.c:2466-2541 (before the order-disorder special cases) *)
Inductive cp_model := CP_BERMAN (c : cpBerman) | CP_SAXENA (c : cpSaxena).
Definition solid_ref (h0 s0 : R) (m : cp_model) (t : R) : thermo :=
  match m with CP_BERMAN c => berman_cp h0 s0 c t | CP_SAXENA c => saxena_cp h0 s0 c t end.
(** intEOSsolid accumulates on top of the reference values *)
Definition solid_berman (h0 s0 : R) (m : cp_model) (e : eosBerman) (t p : R) : thermo :=
  tplus (solid_ref h0 s0 m t) (berman_eos e t p).
(** [X] and [X0] stand for the results of the two Newton loops *)
Definition solid_vinet (h0 s0 : R) (m : cp_model) (e : eosVinet) (X : R -> R -> R) (X0 : R -> R) (t p : R) : thermo :=
  tplus (solid_ref h0 s0 m t) (vinet_eos e (X t p) (X0 t) t p).
