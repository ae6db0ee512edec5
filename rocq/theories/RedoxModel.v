(** Model of the ferric-ferrous equilibrium of a liquid.

    Sources: sources/liquid_v34.c conLiq_v34 103-210 and muO2Liq_v34 745-930 (modes MELTS and pMELTS),
    sources/liquid_CO2_H2O.c conLiq_CO2_H2O 2705-2890 and muO2Liq_CO2_H2O 4412-4606 (rhyolite-MELTS 1.2),
    sources/liquid_CO2.c, the same text for rhyolite-MELTS 1.1, and sources/liquid.c conLiq 7917-8010, muO2Liq
    9749-9930, again the same text for xMELTS. USE_KRESS_CARMICHAEL_FO2 is defined in all of them (liquid.c 223,
    liquid_CO2.c 24, liquid_CO2_H2O.c 24), so the other branch is not compiled.

    Simplifications: doubles are real numbers; only the mask combinations (FIRST|SEVENTH -> FIRST) and (FIRST ->
    SEVENTH) of conLiq are here, the others are in ConModel.v; the search for the indices of FeO and Fe2O3 is replaced
    by the two indices; the result variables that a mask selects are separate functions. *)
From Coq Require Import Reals Arith QArith.Qreals.
From Verif Require Import MassModel.
Local Open Scope R_scope.

(** liquid_v34.c 145-152 = 765-772, liquid_CO2_H2O.c 2758-2765 = 4433-4440: the constants of Kress and Carmichael *)
Definition t0 : R := 167315 / 100.
Definition ka : R := 196 / 1000.
Definition kb : R := 11492.
Definition kc : R := - (6675 / 1000).
Definition ke : R := - (3364 / 1000).
Definition kf : R := - (701 / 10000).
Definition kg : R := - (154 / 10000000).
Definition kh : R := 385 / 1000000000.
(** includes/silmin.h 368 *)
Definition Rgas : R := 83143 / 10000.
(** liquid_CO2_H2O.c 2797-2800, 2841-2843, 4485-4487 *)
Definition kslope : R := 608966 / 1000.

Section Redox.
Variable tab : Tab.
(** bulkSystem[i].coeff (includes/liq_struct_data.h 174-195) and the indices of FeO and Fe2O3 *)
Variable coeff : nat -> R.
Variables iF2 iF3 : nat.
(** whether the pressure terms are replaced above 50 kbar: false in liquid_v34.c, true in the other files *)
Variable capped : bool.
Let n := nc tab.

(** the part of the exponent that depends on t and p only: 2797-2800, 2841-2843, liquid_v34.c 181-182, 200-201 *)
Definition tpTerm (t p : R) : R :=
  if capped && (if Rlt_dec p 50000 then false else true)
  then kb / t + kc + ke * (1 - t0 / t - ln (t / t0)) + kf * 50000 / t + kg * (t - t0) * 50000 / t + kh * (50000 * 50000) / t
       - ka * ln 10 * (kslope * p / 10000 - kslope * 5) / t
  else kb / t + kc + ke * (1 - t0 / t - ln (t / t0)) + kf * p / t + kg * (t - t0) * p / t + kh * (p * p) / t.

(** conLiq(FIRST | SEVENTH, FIRST): liquid_v34.c 174-187, liquid_CO2_H2O.c 2789-2806 *)
Definition toRedox (t p logfo2 : R) (o : nat -> R) : nat -> R :=
  let o := upd o iF2 (o iF2 + 2 * o iF3) in
  let o := upd o iF3 0 in
  if Req_EM_T (o iF2) 0 then o
  else
    let s := sum n o in
    if Req_EM_T s 0 then o
    else
      let temp := ka * ln 10 * logfo2 + tpTerm t p in
      let temp := loop n (fun i x => x + coeff i * o i / s) temp in
      let temp := exp temp in
      let o := upd o iF3 (temp * o iF2 / (1 + 2 * temp)) in
      upd o iF2 (o iF2 - 2 * o iF3).

(** conLiq(FIRST, SEVENTH): liquid_v34.c 196-205, liquid_CO2_H2O.c 2835-2847 *)
Definition fO2of (t p : R) (o : nat -> R) : R :=
  if Req_EM_T (o iF2) 0 then 0
  else if Req_EM_T (o iF3) 0 then 0
  else
    let s := sum n o in
    let s := s + o iF3 in
    if Req_EM_T s 0 then 0
    else
      let temp := tpTerm t p in
      let temp := loop n (fun i x => x + coeff i * o i / s) temp in
      let temp := temp + (2 * coeff iF2 * o iF3 / s - coeff iF3 * o iF3 / s) in
      (ln (o iF3 / o iF2) - temp) / (ka * ln 10).

(** ** muO2Liq *)

(** liquid_v34.c 786-787, liquid_CO2_H2O.c 4461-4462 *)
Definition mOx (m : nat -> R) (i : nat) : R := sum (nlc tab) (fun j => liqToOx tab j i * m j).
(** 789, 4464 *)
Definition tot (o : nat -> R) : R := sum n o + o iF3.
(** 790-804, 4465-4479: all results are zero *)
Definition none (o : nat -> R) : bool :=
  if Req_EM_T (tot o) 0 then true else if Req_EM_T (o iF2) 0 then true else if Req_EM_T (o iF3) 0 then true else false.
Definition unless (b : bool) (x : R) : R := if b then 0 else x.
(** 810-814, 4485-4489 *)
Definition muTemp (t p : R) (o : nat -> R) : R :=
  let s := tot o in
  let temp := tpTerm t p in
  let temp := loop n (fun i x => x + coeff i * o i / s) temp in
  temp + (2 * coeff iF2 * o iF3 / s - coeff iF3 * o iF3 / s).
(** 808-816, 4483-4491 *)
Definition muO2 (t p : R) (m : nat -> R) : R :=
  let o := mOx m in
  unless (none o) (Rgas * t * (ln (o iF3 / o iF2) - muTemp t p o) / ka).

(** 819-834 with x = R*t/a, 889-904 with x = R/a, 4494-4509, 4566-4581: the derivative by oxide j *)
Definition vTemp (o : nat -> R) (x : R) (j : nat) : R :=
  let s := tot o in
  let factor := if Nat.eqb j iF3 then 2 else 1 in
  let v := loop n (fun i v => v - (if Nat.eqb i j then coeff i * (1 - factor * o i / s) / s
                                   else - coeff i * factor * o i / (s * s))) 0 in
  let v := v + - (factor * o iF3 / (s * s)) * (coeff iF3 - 2 * coeff iF2) in
  let v := if Nat.eqb j iF2 then v + - (1) / o iF2
           else if Nat.eqb j iF3 then v + 1 / o iF3 + (1 / s) * (coeff iF3 - 2 * coeff iF2)
           else v in
  v * x.
(** 835-836, 4510-4511 *)
Definition muO2_dm (t p : R) (m : nat -> R) (k : nat) : R :=
  let o := mOx m in
  unless (none o) (sum n (fun j => vTemp o (Rgas * t / ka) j * liqToOx tab k j)).
(** 839-849 and 4514-4525: in liquid_v34.c the pressure terms are inside the parentheses *)
Definition muO2_dt (t p : R) (m : nat -> R) : R :=
  let o := mOx m in
  unless (none o)
    (if capped then
       let d := Rgas * (ln (o iF3 / o iF2) - muTemp t p o) / ka
                + Rgas * t * (kb / (t * t) - ke * (t0 / t - 1) * (1 / t)) / ka in
       if Rlt_dec p 50000
       then d + Rgas * t * (kf * p / (t * t) - kg * (t0 / t) * (p / t) + kh * (p / t * (p / t))) / ka
       else d + Rgas * t * (kf * 50000 / (t * t) - kg * (t0 / t) * (50000 / t) + kh * (50000 / t * (50000 / t))
                            - ka * ln 10 * (kslope * p / 10000 - kslope * 5) / (t * t)) / ka
     else
       Rgas * (ln (o iF3 / o iF2) - muTemp t p o) / ka
       + Rgas * t * (kb / (t * t) - ke * (t0 / t - 1) * (1 / t) + kf * p / (t * t)
                     - kg * (t0 / t) * (p / t) + kh * (p / t * (p / t))) / ka).
(** 851-853 and 4527-4530 *)
Definition muO2_dp (t p : R) (m : nat -> R) : R :=
  unless (none (mOx m))
    (if capped && (if Rlt_dec p 50000 then false else true)
     then Rgas * t * (ka * ln 10 * kslope / 10000 / t) / ka
     else Rgas * t * (- kf / t - kg * (t - t0) / t - 2 * kh * p / t) / ka).
(** 857-882, 4534-4559 *)
Definition mTemp (o : nat -> R) (t : R) (k j : nat) : R :=
  let s := tot o in
  let factorK := if Nat.eqb k iF3 then 2 else 1 in
  let factorJ := if Nat.eqb j iF3 then 2 else 1 in
  let d := coeff iF3 - 2 * coeff iF2 in
  let v := loop n (fun i v =>
             let v := v - 2 * factorJ * factorK * coeff i * o i / (s * s * s) in
             let v := if Nat.eqb i j then v - (- factorK * coeff i / (s * s)) else v in
             if Nat.eqb i k then v - (- factorJ * coeff i / (s * s)) else v) 0 in
  let v := v + 2 * (factorJ * factorK * o iF3 / (s * s * s)) * d in
  let v :=
    if Nat.eqb j iF2 && Nat.eqb k iF2 then v + 1 / (o iF2 * o iF2)
    else if Nat.eqb j iF3 && Nat.eqb k iF3 then v + - (1) / (o iF3 * o iF3) + - ((factorJ + factorK) / (s * s)) * d
    else if Nat.eqb j iF3 then v + - (factorK / (s * s)) * d
    else if Nat.eqb k iF3 then v + - (factorJ / (s * s)) * d
    else v in
  v * (Rgas * t / ka).
(** 883-885, 4560-4562 *)
Definition muO2_d2m (t p : R) (m : nat -> R) (i j : nat) : R :=
  let o := mOx m in
  unless (none o) (sum n (fun k => sum n (fun l => mTemp o t k l * liqToOx tab i k * liqToOx tab j l))).
(** 888-907, 4565-4584 *)
Definition muO2_d2mt (t p : R) (m : nat -> R) (k : nat) : R :=
  let o := mOx m in
  unless (none o) (sum n (fun j => vTemp o (Rgas / ka) j * liqToOx tab k j)).
(** 909-911, 4586-4588 *)
Definition muO2_d2mp (t p : R) (m : nat -> R) (k : nat) : R := 0.
(** 913-919 and 4590-4594 *)
Definition muO2_d2t2 (t p : R) (m : nat -> R) : R :=
  unless (none (mOx m))
    (if capped then
       2 * Rgas * (kb / (t * t) - ke * (t0 / t - 1) * (1 / t)) / ka
       + Rgas * t * (- 2 * kb / (t * t * t) - ke * (1 - 2 * t0 / t) / (t * t)) / ka
     else
       2 * Rgas * (kb / (t * t) - ke * (t0 / t - 1) * (1 / t) + kf * p / (t * t)
                   - kg * (t0 / t) * (p / t) + kh * (p / t * (p / t))) / ka
       + Rgas * t * (- 2 * kb / (t * t * t) - ke * (1 - 2 * t0 / t) / (t * t)
                     - 2 * kf * p / (t * t * t) + 2 * kg * t0 * p / (t * t * t) - 2 * kh * (p / t * (p / t)) / t) / ka).
(** 921-924 and 4596-4599 *)
Definition muO2_d2tp (t p : R) (m : nat -> R) : R :=
  unless (none (mOx m))
    (if capped && (if Rlt_dec p 50000 then false else true)
     then - Rgas * (- ka * ln 10 * kslope / 10000 / t) / ka + Rgas * t * (- ka * ln 10 * kslope / 10000 / (t * t)) / ka
     else - Rgas * (kf / t + kg * (t - t0) / t + 2 * kh * p / t) / ka
          + Rgas * t * (kf / (t * t) - kg * (t0 / t) / t + 2 * kh * p / (t * t)) / ka).
(** 926-928 and 4601-4604 *)
Definition muO2_d2p2 (t p : R) (m : nat -> R) : R :=
  unless (none (mOx m))
    (if capped && (if Rlt_dec p 50000 then false else true) then 0 else - (Rgas * t * 2 * kh / t) / ka).
End Redox.
