(** Model of the mixing model of the liquid in the MELTS and pMELTS calculation modes.

    Source: sources/liquid_v34.c, conLiq_v34 (moles, cases 3 and 4; the redox cases are RedoxModel.v), testLiq_v34 (the
    bounds), actLiq_v34, gmixLiq_v34, hmixLiq_v34, smixLiq_v34, cpmixLiq_v34, vmixLiq_v34, visLiq_v34.

    Simplifications: doubles are real numbers; a loop that accumulates a sum is written [sum]; the printed cautions about
    negative mole fractions are left out; one output of a function (one bit of its mask) is one definition. *)
From Coq Require Import Reals List Bool Arith.
From Verif Require Import MassModel.
Import ListNotations.
Open Scope R_scope.

(** 64-84: where the parameter of a pair of components is. SMX = SHRT_MAX on the diagonal, which no loop reads. *)
Local Notation X := None.
Local Notation P := Some.
Definition Index : list (list (option nat)) :=
 [[X; P 0; P 1; P 2; P 3; P 4; P 5; P 6; P 7; P 8; P 9; P 10; P 11; P 12; P 13; P 14; P 15; P 16; P 17];
  [P 0; X; P 18; P 19; P 20; P 21; P 22; P 23; P 24; P 25; P 26; P 27; P 28; P 29; P 30; P 31; P 32; P 33; P 34];
  [P 1; P 18; X; P 35; P 36; P 37; P 38; P 39; P 40; P 41; P 42; P 43; P 44; P 45; P 46; P 47; P 48; P 49; P 50];
  [P 2; P 19; P 35; X; P 51; P 52; P 53; P 54; P 55; P 56; P 57; P 58; P 59; P 60; P 61; P 62; P 63; P 64; P 65];
  [P 3; P 20; P 36; P 51; X; P 66; P 67; P 68; P 69; P 70; P 71; P 72; P 73; P 74; P 75; P 76; P 77; P 78; P 79];
  [P 4; P 21; P 37; P 52; P 66; X; P 80; P 81; P 82; P 83; P 84; P 85; P 86; P 87; P 88; P 89; P 90; P 91; P 92];
  [P 5; P 22; P 38; P 53; P 67; P 80; X; P 93; P 94; P 95; P 96; P 97; P 98; P 99; P 100; P 101; P 102; P 103; P 104];
  [P 6; P 23; P 39; P 54; P 68; P 81; P 93; X; P 105; P 106; P 107; P 108; P 109; P 110; P 111; P 112; P 113; P 114; P 115];
  [P 7; P 24; P 40; P 55; P 69; P 82; P 94; P 105; X; P 116; P 117; P 118; P 119; P 120; P 121; P 122; P 123; P 124; P 125];
  [P 8; P 25; P 41; P 56; P 70; P 83; P 95; P 106; P 116; X; P 126; P 127; P 128; P 129; P 130; P 131; P 132; P 133; P 134];
  [P 9; P 26; P 42; P 57; P 71; P 84; P 96; P 107; P 117; P 126; X; P 135; P 136; P 137; P 138; P 139; P 140; P 141; P 142];
  [P 10; P 27; P 43; P 58; P 72; P 85; P 97; P 108; P 118; P 127; P 135; X; P 143; P 144; P 145; P 146; P 147; P 148; P 149];
  [P 11; P 28; P 44; P 59; P 73; P 86; P 98; P 109; P 119; P 128; P 136; P 143; X; P 150; P 151; P 152; P 153; P 154; P 155];
  [P 12; P 29; P 45; P 60; P 74; P 87; P 99; P 110; P 120; P 129; P 137; P 144; P 150; X; P 156; P 157; P 158; P 159; P 160];
  [P 13; P 30; P 46; P 61; P 75; P 88; P 100; P 111; P 121; P 130; P 138; P 145; P 151; P 156; X; P 161; P 162; P 163; P 164];
  [P 14; P 31; P 47; P 62; P 76; P 89; P 101; P 112; P 122; P 131; P 139; P 146; P 152; P 157; P 161; X; P 165; P 166; P 167];
  [P 15; P 32; P 48; P 63; P 77; P 90; P 102; P 113; P 123; P 132; P 140; P 147; P 153; P 158; P 162; P 165; X; P 168; P 169];
  [P 16; P 33; P 49; P 64; P 78; P 91; P 103; P 114; P 124; P 133; P 141; P 148; P 154; P 159; P 163; P 166; P 168; X; P 170];
  [P 17; P 34; P 50; P 65; P 79; P 92; P 104; P 115; P 125; P 134; P 142; P 149; P 155; P 160; P 164; P 167; P 169; P 170; X]]%nat.
Definition index (i j : nat) : option nat := nth j (nth i Index []) None.
(** 87-89: WH, WS, WV from the arrays of parameters *)
Definition byPair (par : nat -> R) (i j : nat) : R := match index i j with Some k => par k | None => 0 end.

(** includes/silmin.h 368: the gas constant *)
Definition Rg : R := 8.3143.
(** 56-57: NR independent variables, NA = NR + 1 components *)
Definition NR : nat := 18.

Definition isZ (x : R) : bool := if Req_EM_T x 0 then true else false.

Section Liquid.
(** n stands for NR; the arrays meltsModelParameters or pMeltsModelParameters through [index] (87-89) *)
Variable n : nat.
Variables WH WS WV : nat -> nat -> R.
Notation NA := (S n).

(** ** conLiq_v34 235-275, case 3 *)
Definition total (m : nat -> R) : R := sum NA m.
(** THIRD *)
Definition rOf (m : nat -> R) (i : nat) : R := if isZ (total m) then 0 else m (S i) / total m.
(** FOURTH *)
Definition xOf (m : nat -> R) (i : nat) : R := if isZ (total m) then 0 else m i / total m.
(** FIFTH *)
Definition drOf (m : nat -> R) (i j : nat) : R :=
  if isZ (total m) then 0
  else if Nat.eqb (S i) j then (1 - m (S i) / total m) / total m else - m (S i) / (total m * total m).
(** SIXTH *)
Definition d2rOf (m : nat -> R) (i j k : nat) : R :=
  if isZ (total m) then 0
  else 2 * m (S i) / (total m * total m * total m)
       - (if Nat.eqb (S i) j then 1 / (total m * total m) else 0)
       - (if Nat.eqb (S i) k then 1 / (total m * total m) else 0).
(** case 4 (277-281), and the first line of every function below *)
Definition xr (r : nat -> R) (i : nat) : R := match i with O => 1 - sum n r | S k => r k end.

(** ** testLiq_v34 331-343 *)
Definition testR (r : nat -> R) : Prop := (forall i, (i < n)%nat -> 0 <= r i <= 1) /\ sum n r <= 1.
Definition testM (m : nat -> R) : Prop := forall i, (i < NA)%nat -> 0 <= m i.

(** ** actLiq_v34 384-482 *)
Definition W (t p : R) (i j : nat) : R := WH i j - t * WS i j + (p - 1) * WV i j.
(** sum over pairs i < j *)
Definition pairs (w : nat -> nat -> R) (x : nat -> R) : R := sum NA (fun i => sum NA (fun j => if Nat.ltb i j then x i * x j * w i j else 0)).
(** 400-402 *)
Definition gex (t p : R) (r : nat -> R) : R := pairs (W t p) (xr r).
(** 406-408 and twice more *)
Definition lnGamma (t p : R) (r : nat -> R) (i : nat) : R :=
  - gex t p r + sum i (fun j => W t p i j * xr r j) + sum NA (fun j => if Nat.ltb i j then W t p i j * xr r j else 0).
(** 404-413 *)
Definition act (t p : R) (r : nat -> R) (i : nat) : R :=
  let a := if isZ (xr r i) then 0 else xr r i * exp (lnGamma t p r i / (Rg * t)) in
  if Nat.eqb i n then xr r n * a else (1 - xr r n) * a.
(** 415-432 *)
Definition mu (t p : R) (r : nat -> R) (i : nat) : R :=
  let u := if isZ (xr r i) then 0 else lnGamma t p r i + Rg * t * ln (xr r i) in
  if Nat.eqb i n then (if isZ (xr r n) then u else u + Rg * t * ln (xr r n)) else u + Rg * t * ln (1 - xr r n).
(** 446-451; the same loop with the entropy and the volume parameters is in smixLiq and vmixLiq *)
Definition slope (w : nat -> nat -> R) (r : nat -> R) (i : nat) : R :=
  xr r 0 * w 0%nat (S i) + sum n (fun j => if Nat.eqb i j then - r j * w 0%nat (S j) else r j * (w (S i) (S j) - w 0%nat (S j))).
(** 453-473 *)
Definition dact (t p : R) (r : nat -> R) (i j : nat) : R :=
  match i with
  | O => ((- Rg * t / xr r 0 + W t p 0 (S j) - slope (W t p) r j) + (if Nat.eqb (S j) n then - Rg * t / (1 - xr r n) else 0)) * (act t p r 0 / (Rg * t))
  | S _ => ((if Nat.eqb i (S j) then (if isZ (r j) then 0 else Rg * t / r j) else W t p i (S j))
            + (- W t p 0 i - slope (W t p) r j)
            + (if negb (Nat.eqb i n) && Nat.eqb (S j) n then - Rg * t / (1 - xr r n)
               else if Nat.eqb i n && Nat.eqb (S j) n && negb (isZ (xr r n)) then Rg * t / xr r n else 0)) * (act t p r i / (Rg * t))
  end.
(** 475-480 *)
Definition actIdeal (r : nat -> R) (i : nat) : R := if Nat.eqb i n then xr r n * xr r n else (1 - xr r n) * xr r i.

(** ** gmixLiq_v34 484-552 *)
Definition xlogx (x : R) : R := if isZ x then 0 else x * ln x.
Definition gmix (t p : R) (r : nat -> R) : R :=
  sum NA (fun i => sum NA (fun j => if Nat.ltb i j then xr r i * xr r j * (WH i j - t * WS i j + (p - 1) * WV i j) else 0)
                   + (if isZ (xr r i) then 0 else Rg * t * xr r i * ln (xr r i)))
  + (if isZ (xr r n) then 0 else Rg * t * (xr r n * ln (xr r n) + (1 - xr r n) * ln (1 - xr r n))).
(** 517-535 *)
Definition dgmix (t p : R) (r : nat -> R) (i : nat) : R :=
  (if isZ (r i) then 0 else Rg * t * (ln (r i) - ln (xr r 0))) + slope (W t p) r i
  + (if Nat.eqb (S i) n then (if isZ (xr r n) then 0 else Rg * t * (ln (xr r n) - ln (1 - xr r n))) else 0).
(** 537-550 *)
Definition curve (w : nat -> nat -> R) (i j : nat) : R := - w 0%nat (S i) - w 0%nat (S j) + (if Nat.eqb i j then 0 else w (S i) (S j)).
Definition d2gmix (t p : R) (r : nat -> R) (i j : nat) : R :=
  Rg * t / xr r 0 + curve (W t p) i j
  + (if Nat.eqb i j then (if isZ (r i) then 0 else Rg * t / r i) else 0)
  + (if Nat.eqb (S i) n && Nat.eqb (S j) n then (if isZ (xr r n) then 0 else Rg * t * (1 / xr r n + 1 / (1 - xr r n))) else 0).

(** ** hmixLiq_v34 554-572 *)
Definition hmix (p : R) (r : nat -> R) : R := pairs (fun i j => WH i j + (p - 1) * WV i j) (xr r).

(** ** smixLiq_v34 574-634 *)
Definition smix (r : nat -> R) : R :=
  sum NA (fun i => sum NA (fun j => if Nat.ltb i j then xr r i * xr r j * WS i j else 0) + (if isZ (xr r i) then 0 else - Rg * xr r i * ln (xr r i)))
  + (if isZ (xr r n) then 0 else - Rg * (xr r n * ln (xr r n) + (1 - xr r n) * ln (1 - xr r n))).
Definition dsmix (r : nat -> R) (i : nat) : R :=
  (if isZ (r i) then 0 else Rg * (ln (xr r 0) - ln (r i))) + slope WS r i
  + (if Nat.eqb (S i) n then (if isZ (xr r n) then 0 else - Rg * (ln (xr r n) - ln (1 - xr r n))) else 0).
Definition d2smix (r : nat -> R) (i j : nat) : R :=
  - Rg / xr r 0 + curve WS i j
  + (if Nat.eqb i j then (if isZ (r i) then 0 else - Rg / r i) else 0)
  + (if Nat.eqb (S i) n && Nat.eqb (S j) n then (if isZ (xr r n) then 0 else - Rg * (1 / xr r n + 1 / (1 - xr r n))) else 0).

(** ** cpmixLiq_v34 636-663 *)
Definition cpmix : R := 0.
Definition dcpmixdt : R := 0.
Definition dcpmix (i : nat) : R := 0.

(** ** vmixLiq_v34 665-735 *)
Definition vmix (r : nat -> R) : R := pairs WV (xr r).
Definition dvmix (r : nat -> R) (i : nat) : R := slope WV r i.
Definition d2vmix (i j : nat) : R := curve WV i j.
Definition dvmixdt : R := 0.
Definition dvmixdp : R := 0.
End Liquid.

(** ** visLiq_v34 932-985 (Shaw, 1972), natural logarithms divided by ln 10 at the end *)
Section Shaw.
Variable tab : Tab.
(** coeff[] and factor[] (943-960): the numbers of the Shaw table at the oxides it names, 0 elsewhere; nSiO2 *)
Variables coeff factor : nat -> R.
Variable si : nat.
Notation na := (nc tab).
(** 968-976 *)
Definition shawMoles (m : nat -> R) (i : nat) : R :=
  let x := sum na (fun j => liqToOx tab j i * m j) in if Rlt_dec 0 (factor i) then x * factor i else x.
Definition shawX (m : nat -> R) (i : nat) : R :=
  let s := sum na (shawMoles m) in shawMoles m i / (if isZ s then 1 else s).
(** 978-982 *)
Definition shawSlope (m : nat -> R) : R :=
  let x := shawX m in
  sum na (fun i => coeff i * x si * x i) / (if Rlt_dec (x si) 1 then 1 - x si else 1).
Definition viscosity (t : R) (m : nat -> R) : R := (shawSlope m * (10000 / t - 1.50) - 6.40) / ln 10.
End Shaw.

(** 943-960: the Shaw table by the order of the oxides (NAMES in testLiq_v34 and bulkSystem): TiO2, Al2O3, Fe2O3, FeO, MgO,
    CaO, Na2O, K2O and H2O; SiO2 is number 0 *)
Definition shawCoeff (i : nat) : R :=
  match i with 1%nat => 4.5 | 2%nat => 6.7 | 3%nat => 3.4 | 5%nat => 3.4 | 7%nat => 3.4 | 10%nat => 4.5 | 11%nat => 2.8 | 12%nat => 2.8 | 14%nat => 2.0
  | _ => 0 end.
Definition shawFactor (i : nat) : R :=
  match i with 1%nat => 1 | 2%nat => 2 | 3%nat => 2 | 5%nat => 1 | 7%nat => 1 | 10%nat => 1 | 11%nat => 1 | 12%nat => 1 | 14%nat => 1 | _ => 0 end.
