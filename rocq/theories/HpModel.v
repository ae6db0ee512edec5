(** Model of HPproperties (sources/gibbs.c:708-843), the Holland-Powell standard state used for the
    Tajcmanova biotite end members. [double] is modelled by exact reals. *)
From Coq Require Import Reals Lra.
From Verif Require Import RealTac EosSpec EosModel.
Local Open Scope R_scope.

(** arguments of HPproperties: gibbs.c:708-710 *)
Record hp := mkHP { ph298 : R; ps298 : R; pv298 : R; pa : R; pb : R; pc : R; pd : R;
                    pa0 : R; pK298 : R; pTc0 : R; pSmax : R; pVmax : R }.

Definition pow (x y : R) : R := Rpower x y.   (* math.h pow, positive base *)

(** gibbs.c:712-715 (v1T and derivatives; the factor is v298) and 785-788 (vPT: factor Vmax*Q2at298) *)
Definition hp_v (f a0 t : R) : R := f*(1.0+a0*(t-tr) - 20.0*a0*(sqrt t-sqrt tr)).
Definition hp_dv (f a0 t : R) : R := f*(a0 - 10.0*a0/sqrt t).
Definition hp_d2v (f a0 t : R) : R := f*5.0*a0/pow t (3.0/2.0).
Definition hp_d3v (f a0 t : R) : R := -3.0*f*5.0*a0/pow t (5.0/2.0)/2.0.
(** gibbs.c:716-717 *)
Definition hp_KT (K298 t : R) : R := K298*(1.0 - 1.5e-4*(t-tr)).
Definition hp_dKT (K298 : R) : R := -1.5e-4*K298.
(** gibbs.c:719-725 *)
Definition hp_vInt (KT p : R) : R := pow (1.0 + 4.0*p/KT) (3.0/4.0)/3.0 - 1.0/3.0.
Definition hp_dvInt (KT dKTdt p : R) : R := -p*dKTdt/KT/KT/pow (1.0 + 4.0*p/KT) (1.0/4.0).
Definition hp_d2vInt (KT dKTdt p : R) : R :=
  2.0*p*dKTdt*dKTdt/KT/KT/KT/pow (1.0 + 4.0*p/KT) (1.0/4.0) - p*p*dKTdt*dKTdt/KT/KT/KT/KT/pow (1.0 + 4.0*p/KT) (5.0/4.0).
Definition hp_d3vInt (KT dKTdt p : R) : R :=
  - (6.0*p*dKTdt*dKTdt*dKTdt/KT/KT/KT/KT/pow (1.0 + 4.0*p/KT) (1.0/4.0))
    + 2.0*p*p*dKTdt*dKTdt*dKTdt/KT/KT/KT/KT/KT/pow (1.0 + 4.0*p/KT) (5.0/4.0)
    + 4.0*p*p*dKTdt*dKTdt*dKTdt/KT/KT/KT/KT/KT/pow (1.0 + 4.0*p/KT) (5.0/4.0)
    - 5.0*p*p*p*dKTdt*dKTdt*dKTdt/KT/KT/KT/KT/KT/KT/pow (1.0 + 4.0*p/KT) (9.0/4.0).

(** gibbs.c:727-743 with v1T; 812-840 repeat the same expressions with vPT. The pair (f,a0) selects the factor. *)
Definition hp_vol (f a0 K298 t p : R) : thermo :=
  let v1T := hp_v f a0 t in let dv1Tdt := hp_dv f a0 t in let d2v1Tdt2 := hp_d2v f a0 t in
  let KT := hp_KT K298 t in let dKTdt := hp_dKT K298 in
  mkThermo 0 0 0 0 0
   (v1T*pow (1.0 - 4.0*p/(KT + 4.0*p)) (1.0/4.0))
   (dv1Tdt*pow (1.0 - 4.0*p/(KT + 4.0*p)) (1.0/4.0)
    + v1T*(4.0*p/(KT+4.0*p)/(KT+4.0*p))*dKTdt/4.0/pow (1.0 - 4.0*p/(KT + 4.0*p)) (3.0/4.0))
   (v1T*(-4.0*KT/(KT+4.0*p)/(KT+4.0*p))/4.0/pow (1.0 - 4.0*p/(KT + 4.0*p)) (3.0/4.0))
   (d2v1Tdt2*pow (1.0 - 4.0*p/(KT + 4.0*p)) (1.0/4.0)
    + 2.0*dv1Tdt*(4.0*p/(KT+4.0*p)/(KT+4.0*p))*dKTdt/4.0/pow (1.0 - 4.0*p/(KT + 4.0*p)) (3.0/4.0)
    - 3.0*v1T*(4.0*p*dKTdt/(KT+4.0*p)/(KT+4.0*p))^2/4.0/4.0/pow (1.0 - 4.0*p/(KT + 4.0*p)) (7.0/4.0)
    + v1T*(-8.0*p/(KT+4.0*p)/(KT+4.0*p)/(KT+4.0*p))*dKTdt*dKTdt/4.0/pow (1.0 - 4.0*p/(KT + 4.0*p)) (3.0/4.0))
   (dv1Tdt*(-4.0*KT/(KT+4.0*p)/(KT+4.0*p))/4.0/pow (1.0 - 4.0*p/(KT + 4.0*p)) (3.0/4.0)
    - 3.0*v1T*(-4.0*KT/(KT+4.0*p)/(KT+4.0*p))*(4.0*p/(KT+4.0*p)/(KT+4.0*p))*dKTdt/4.0/4.0
      /pow (1.0 - 4.0*p/(KT + 4.0*p)) (7.0/4.0)
    + v1T*(4.0/(KT+4.0*p)/(KT+4.0*p) - 32.0*p/(KT+4.0*p)/(KT+4.0*p)/(KT+4.0*p))*dKTdt/4.0
      /pow (1.0 - 4.0*p/(KT + 4.0*p)) (3.0/4.0))
   (- (3.0*v1T*(-4.0*KT/(KT+4.0*p)/(KT+4.0*p))^2/4.0/4.0/pow (1.0 - 4.0*p/(KT + 4.0*p)) (7.0/4.0))
    + v1T*(32.0*KT/(KT+4.0*p)/(KT+4.0*p)/(KT+4.0*p))/4.0/pow (1.0 - 4.0*p/(KT + 4.0*p)) (3.0/4.0)).

(** the integral of the volume and its T-derivatives: gibbs.c:745-752 and 790-794 *)
Definition hp_I (f a0 K298 t p : R) : R := hp_v f a0 t*hp_KT K298 t*hp_vInt (hp_KT K298 t) p.
Definition hp_dI (f a0 K298 t p : R) : R :=
  let KT := hp_KT K298 t in let dKTdt := hp_dKT K298 in
  hp_dv f a0 t*KT*hp_vInt KT p + hp_v f a0 t*dKTdt*hp_vInt KT p + hp_v f a0 t*KT*hp_dvInt KT dKTdt p.
Definition hp_d2I (f a0 K298 t p : R) : R :=
  let KT := hp_KT K298 t in let dKTdt := hp_dKT K298 in
  hp_d2v f a0 t*KT*hp_vInt KT p + 2.0*hp_dv f a0 t*dKTdt*hp_vInt KT p + 2.0*hp_dv f a0 t*KT*hp_dvInt KT dKTdt p
  + 2.0*hp_v f a0 t*dKTdt*hp_dvInt KT dKTdt p + hp_v f a0 t*KT*hp_d2vInt KT dKTdt p.
Definition hp_d3I (f a0 K298 t p : R) : R :=
  let KT := hp_KT K298 t in let dKTdt := hp_dKT K298 in
  hp_d3v f a0 t*KT*hp_vInt KT p + 3.0*hp_d2v f a0 t*dKTdt*hp_vInt KT p + 6.0*hp_dv f a0 t*dKTdt*hp_dvInt KT dKTdt p
  + 3.0*hp_d2v f a0 t*KT*hp_dvInt KT dKTdt p + 3.0*hp_dv f a0 t*KT*hp_d2vInt KT dKTdt p
  + 3.0*hp_v f a0 t*dKTdt*hp_d2vInt KT dKTdt p + hp_v f a0 t*KT*hp_d3vInt KT dKTdt p.

(** gibbs.c:745-762: the part without the Landau transition *)
Definition hp_base (c : hp) (t p : R) : thermo :=
  let V := hp_vol (pv298 c) (pa0 c) (pK298 c) t p in
  let I0 := hp_I (pv298 c) (pa0 c) (pK298 c) t p in
  let ss1 := -1.0 * hp_dI (pv298 c) (pa0 c) (pK298 c) t p in
  let hs1 := I0 + t*ss1 in
  let d2 := hp_d2I (pv298 c) (pa0 c) (pK298 c) t p in
  let dcp1 := hp_d3I (pv298 c) (pa0 c) (pK298 c) t p * (- t) - d2 in
  let cp1 := d2 * (- t) in
  let cps := cp1 + (pa c + pb c*t + pc c/t/t + pd c/sqrt t) in
  let dcps := dcp1 + (pb c - 2.0*pc c/t/t/t - pd c/2.0/pow t (3.0/2.0)) in
  let hs := hs1 + (ph298 c + pa c*(t-tr) + pb c*(t*t-tr*tr)/2.0 - pc c*(1.0/t-1.0/tr) + 2.0*pd c*(sqrt t-sqrt tr)) in
  let ss := ss1 + (ps298 c + pa c*ln (t/tr) + pb c*(t-tr) - pc c*(1.0/t/t-1.0/tr/tr)/2.0 - 2.0*pd c*(1.0/sqrt t-1.0/sqrt tr)) in
  mkThermo (hs - t*ss) hs ss cps dcps (tV V) (tVt V) (tVp V) (tVtt V) (tVtp V) (tVpp V).

(** gibbs.c:765-841: the Landau terms, below the transition temperature *)
Definition hp_Tc (c : hp) (p : R) : R := pTc0 c + pVmax c*p/pSmax c.
Definition hp_landau (c : hp) (t p : R) : thermo :=
  let Tc := hp_Tc c p in
  let Smax := pSmax c in let Tc0 := pTc0 c in
  let dTcdp     := pVmax c/Smax in
  let Q2at298   := sqrt (1.0 - tr/Tc0) in
  let Q2        := sqrt (1.0 - t/Tc) in
  let dQ2dt     := -1.0/sqrt (1.0 - t/Tc)/2.0/Tc in
  let d2Q2dt2   := -1.0/pow (1.0 - t/Tc) (3.0/2.0)/2.0/2.0/Tc/Tc in
  let d3Q2dt3   := -3.0/pow (1.0 - t/Tc) (5.0/2.0)/2.0/2.0/2.0/Tc/Tc/Tc in
  let dQ2dp     := t*dTcdp/sqrt (1.0 - t/Tc)/2.0/Tc/Tc in
  let d2Q2dtdp  := -t*dTcdp/pow (1.0 - t/Tc) (3.0/2.0)/2.0/2.0/Tc/Tc + dTcdp/pow (1.0 - t/Tc) (1.0/2.0)/2.0/Tc/Tc in
  let d2Q2dp2   := -t*t*dTcdp*dTcdp/pow (1.0 - t/Tc) (3.0/2.0)/2.0/2.0/Tc/Tc/Tc/Tc - 2.0*t*dTcdp*dTcdp/sqrt (1.0 - t/Tc)/2.0/Tc/Tc/Tc in
  let d3Q2dp3   := 3.0*t*t*t*dTcdp*dTcdp*dTcdp/pow (1.0 - t/Tc) (5.0/2.0)/2.0/2.0/2.0/Tc/Tc/Tc/Tc/Tc/Tc
            + 4.0*t*t*dTcdp*dTcdp*dTcdp/pow (1.0 - t/Tc) (3.0/2.0)/2.0/2.0/Tc/Tc/Tc/Tc/Tc
            + t*t*dTcdp*dTcdp*dTcdp/pow (1.0 - t/Tc) (3.0/2.0)/2.0/Tc/Tc/Tc/Tc/Tc
            + 6.0*t*dTcdp*dTcdp*dTcdp/sqrt (1.0 - t/Tc)/2.0/Tc/Tc/Tc/Tc in
  let d3Q2dt2dp := -dTcdp/pow (1.0 - t/Tc) (3.0/2.0)/2.0/2.0/Tc/Tc - 3.0*t*dTcdp/pow (1.0 - t/Tc) (5.0/2.0)/2.0/2.0/2.0/Tc/Tc/Tc
            + dTcdp/pow (1.0 - t/Tc) (3.0/2.0)/2.0/2.0/Tc/Tc/Tc in
  let d3Q2dtdp2 := 3.0*t*t*dTcdp*dTcdp/pow (1.0 - t/Tc) (5.0/2.0)/2.0/2.0/2.0/Tc/Tc/Tc/Tc + 2.0*t*dTcdp*dTcdp/pow (1.0 - t/Tc) (3.0/2.0)/2.0/2.0/Tc/Tc/Tc
            - t*dTcdp*dTcdp/pow (1.0 - t/Tc) (3.0/2.0)/2.0/2.0/Tc/Tc/Tc/Tc - 2.0*dTcdp*dTcdp/pow (1.0 - t/Tc) (1.0/2.0)/2.0/Tc/Tc/Tc in
  let hP298     := Smax*Tc0*(Q2at298 - Q2at298*Q2at298*Q2at298/3.0) in
  let sP298     := Smax*Q2at298 in
  let f         := pVmax c*Q2at298 in
  let vIntegral := hp_I f (pa0 c) (pK298 c) t p in
  let dvIntegraldt := hp_dI f (pa0 c) (pK298 c) t p in
  let d2vIntegraldt2 := hp_d2I f (pa0 c) (pK298 c) t p in
  let d3vIntegraldt3 := hp_d3I f (pa0 c) (pK298 c) t p in
  let Glandau      := Smax*((t-Tc)*Q2 + Tc*Q2*Q2*Q2/3.0) in
  let dGlandaudt   := Smax*(Q2 + (t-Tc)*dQ2dt + Tc*Q2*Q2*dQ2dt) in
  let d2Glandaudt2 := Smax*(2.0*dQ2dt + (t-Tc)*d2Q2dt2 + 2.0*Tc*Q2*dQ2dt*dQ2dt + Tc*Q2*Q2*d2Q2dt2) in
  let d3Glandaudt3 := Smax*(3.0*d2Q2dt2 + (t-Tc)*d3Q2dt3 + 2.0*Tc*dQ2dt*dQ2dt*dQ2dt + 6.0*Tc*Q2*dQ2dt*d2Q2dt2 + Tc*Q2*Q2*d3Q2dt3) in
  let dGlandaudp     := Smax*(-dTcdp*Q2 + (t-Tc)*dQ2dp + dTcdp*Q2*Q2*Q2/3.0 + Tc*Q2*Q2*dQ2dp) in
  let d2Glandaudtdp  := Smax*(-dTcdp*dQ2dt + dQ2dp + (t-Tc)*d2Q2dtdp + dTcdp*Q2*Q2*dQ2dt + 2.0*Tc*Q2*dQ2dt*dQ2dp + Tc*Q2*Q2*d2Q2dtdp) in
  let d2Glandaudp2   := Smax*(-dTcdp*dQ2dp -dTcdp*dQ2dp + (t-Tc)*d2Q2dtdp + dTcdp*Q2*Q2*dQ2dp/3.0 + dTcdp*Q2*Q2*dQ2dp + 2.0*Tc*Q2*dQ2dp*dQ2dp + Tc*Q2*Q2*d2Q2dp2) in
  let d3Glandaudt2dp := Smax*(-dTcdp*d2Q2dt2 + d2Q2dtdp + d2Q2dtdp + (t-Tc)*d3Q2dt2dp + 2.0*dTcdp*Q2*dQ2dt*dQ2dt + dTcdp*Q2*Q2*d2Q2dt2
                                          + 2.0*Tc*dQ2dt*dQ2dt*dQ2dp + 2.0*Tc*Q2*d2Q2dt2*dQ2dp + 2.0*Tc*Q2*dQ2dt*d2Q2dtdp + 2.0*Tc*Q2*dQ2dt*d2Q2dtdp + Tc*Q2*Q2*d3Q2dt2dp) in
  let d3Glandaudtdp2 := Smax*(-dTcdp*d2Q2dtdp + d2Q2dp2 + (t-Tc)*d3Q2dtdp2 + 2.0*dTcdp*Q2*dQ2dp*dQ2dt + dTcdp*Q2*Q2*d2Q2dtdp
                                          + 2.0*dTcdp*Q2*dQ2dt*dQ2dp + 2.0*Tc*dQ2dp*dQ2dt*dQ2dp + 2.0*Tc*Q2*d2Q2dtdp*dQ2dp + 2.0*Tc*Q2*dQ2dt*d2Q2dp2
                                          + dTcdp*Q2*Q2*d2Q2dtdp + 2.0*Tc*Q2*dQ2dp*d2Q2dtdp + Tc*Q2*Q2*d3Q2dtdp2) in
  let d3Glandaudp3   := Smax*(-dTcdp*d2Q2dp2 -dTcdp*d2Q2dp2 + (t-Tc)*d3Q2dtdp2 + 2.0*dTcdp*Q2*dQ2dp*dQ2dp/3.0 + dTcdp*Q2*Q2*d2Q2dp2/3.0
                                          + 2.0*dTcdp*Q2*dQ2dp*dQ2dp + dTcdp*Q2*Q2*d2Q2dp2 + 2.0*dTcdp*Q2*dQ2dp*dQ2dp + 2.0*Tc*dQ2dp*dQ2dp*dQ2dp + 4.0*Tc*Q2*dQ2dp*d2Q2dp2
                                          + dTcdp*Q2*Q2*d2Q2dp2 + 2.0*Tc*Q2*dQ2dp*d2Q2dp2 + Tc*Q2*Q2*d3Q2dp3) in
  let V := hp_vol f (pa0 c) (pK298 c) t p in
  mkThermo
    (hP298 - t*sP298 + vIntegral + Glandau)
    (hP298 + vIntegral + Glandau - t*(dvIntegraldt + dGlandaudt))
    (sP298 - (dvIntegraldt + dGlandaudt))
    (-t*(d2vIntegraldt2 + d2Glandaudt2))
    (-(d2vIntegraldt2 + d2Glandaudt2) - t*(d3vIntegraldt3 + d3Glandaudt3))
    (tV V + dGlandaudp) (tVt V + d2Glandaudtdp) (tVp V + d2Glandaudp2)
    (tVtt V + d3Glandaudt2dp) (tVtp V + d3Glandaudtdp2) (tVpp V + d3Glandaudp3).

(** HPproperties, gibbs.c:708-843 *)
Definition HPproperties (c : hp) (t p : R) : thermo :=
  if Rlt_dec 0 (pTc0 c) then
    if Rlt_dec 0 (pSmax c) then
      if Rlt_dec t (hp_Tc c p) then tplus (hp_base c t p) (hp_landau c t p) else hp_base c t p
    else hp_base c t p
  else hp_base c t p.

(** the argument lists of the calls in gibbs(): gibbs.c:2405-2470 *)
Definition hpEAST := mkHP (-6338170.0) 318.0 14.738 785.5 (-0.038031) (-2130300.0) (-6893.7) 5.79e-5 513000.0 0.0 0.0 0.0.
Definition hpCOR  := mkHP (-1675140.0) 50.90 2.558 139.5 0.005890 (-2460600.0) (-589.2) 4.19e-5 2520000.0 0.0 0.0 0.0.
Definition hpHEM  := mkHP (-825690.0) 87.4 3.0274 163.9 0.0 (-2257200.0) (-657.6) 5.99e-5 1996000.0 955.0 15.6 0.0.
Definition hpPHL  := mkHP (-6219160.0) 328.0 14.964 770.3 (-0.036939) (-2328900.0) (-6531.6) 5.79e-5 513000.0 0.0 0.0 0.0.
Definition hpBRU  := mkHP (-924940.0) 64.50 2.463 158.4 (-0.004076) (-1052300.0) (-1171.3) 13.0e-5 485000.0 0.0 0.0 0.0.
Definition hpRUT  := mkHP (-944180.0) 50.60 1.882 90.4 0.002900 0.0 (-623.8) 4.43e-5 2225000.0 0.0 0.0 0.0.
Definition hpANN  := mkHP (-5151670.0) 418.0 15.432 815.7 (-0.034861) 19800.0 (-7466.7) 5.79e-5 513000.0 0.0 0.0 0.0.

(** scalar multiple of the eleven properties *)
Definition tscale (k : R) (a : thermo) : thermo :=
  mkThermo (k * tG a) (k * tH a) (k * tS a) (k * tCp a) (k * tdCp a)
           (k * tV a) (k * tVt a) (k * tVp a) (k * tVtt a) (k * tVtp a) (k * tVpp a).
(** the Tajcmanova corrections "gs += A - t*B; hs += A; ss += B", gibbs.c:2427-2429 and 2455-2457 *)
Definition taj (A B t : R) : thermo := mkThermo (A - t*B) A B 0 0 0 0 0 0 0 0.
(** gibbs.c:2400-2429, "fbiTaj": EAST - 0.5 COR + 0.5 HEM + 6000 *)
Definition fbiTaj (t p : R) : thermo :=
  tplus (tplus (tplus (HPproperties hpEAST t p) (tscale (-0.5) (HPproperties hpCOR t p))) (tscale 0.5 (HPproperties hpHEM t p))) (taj 6000.0 0 t).
(** gibbs.c:2431-2457, "tbiTaj": PHL - BRU + RUT + 84000 - 11.5 t *)
Definition tbiTaj (t p : R) : thermo :=
  tplus (tplus (tplus (HPproperties hpPHL t p) (tscale (-1) (HPproperties hpBRU t p))) (HPproperties hpRUT t p)) (taj 84000.0 11.5 t).
