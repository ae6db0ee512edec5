(** Model of the viscosities of the shared library.

    Sources: sources/library.c viscosityFromGRD 473-512, viscosityFromShaw 519-566, getMeltsViscosity 572-594.

    Simplifications: real numbers; bulkSystem[].mw is a function omw, as many components as oxides (C46: 19), and SiO2 is one of
    them, so that 546 does not return; the caller's *failure is a Boolean; setjmp never returns twice (C14x). *)
From Coq Require Import Reals String Bool Arith List.
From Verif Require Import MassModel Tables.
Import ListNotations.
Open Scope R_scope.

Section Viscosity.
Variable omw : nat -> R.

(** 481-491 *)
Definition grdMoles (ox : nat -> R) (i : nat) : R :=
  match i with
  | 0%nat => ox 0%nat / omw 0%nat | 1%nat => ox 1%nat / omw 1%nat | 2%nat => ox 2%nat / omw 2%nat
  | 3%nat => 2 * ox 3%nat / omw 3%nat + ox 5%nat / omw 5%nat
  | 4%nat => ox 6%nat / omw 6%nat | 5%nat => ox 7%nat / omw 7%nat | 6%nat => ox 10%nat / omw 10%nat | 7%nat => ox 11%nat / omw 11%nat
  | 8%nat => ox 12%nat / omw 12%nat | 9%nat => ox 13%nat / omw 13%nat | _ => ox 14%nat / omw 14%nat
  end.
(** 492-493 *)
Definition percent (m : nat -> R) (i : nat) : R := m i / (if Req_EM_T (sum 11 m) 0 then 1 else sum 11 m / 100).
(** 495-503 *)
Definition grdB (x : nat -> R) : R :=
  159.6 * (x 0%nat + x 1%nat) + -173.3 * x 2%nat + 72.1 * (x 3%nat + x 4%nat + x 9%nat) + 75.7 * x 5%nat + -39.0 * x 6%nat
  + -84.1 * (x 7%nat + x 10%nat) + 141.5 * (x 10%nat + ln (1 + x 10%nat))
  + -2.43 * (x 0%nat + x 1%nat) * (x 3%nat + x 4%nat + x 5%nat)
  + -0.91 * (x 0%nat + x 1%nat + x 2%nat + x 9%nat) * (x 7%nat + x 8%nat + x 10%nat)
  + 17.6 * x 2%nat * (x 7%nat + x 8%nat).
(** 505-512 *)
Definition grdC (x : nat -> R) : R :=
  2.75 * x 0%nat + 15.7 * (x 1%nat + x 2%nat) + 8.3 * (x 3%nat + x 4%nat + x 5%nat) + 10.2 * x 6%nat + -12.3 * (x 7%nat + x 8%nat)
  + -99.5 * ln (1 + x 10%nat)
  + 0.30 * (x 2%nat + x 3%nat + x 4%nat + x 5%nat + x 6%nat - x 9%nat) * (x 7%nat + x 8%nat + x 10%nat).
Definition viscosityFromGRD (t : R) (ox : nat -> R) : R :=
  let x := percent (grdMoles ox) in exp (ln 10 * (-4.55 + grdB x / (t - grdC x))).

(** ** Shaw: 527-534 *)
Definition shawModel : list (string * R * R) :=
  [("TiO2", 4.5, 1); ("Al2O3", 6.7, 2); ("Fe2O3", 3.4, 2); ("FeO", 3.4, 1); ("MgO", 3.4, 1); ("CaO", 4.5, 1); ("Na2O", 2.8, 1); ("K2O", 2.8, 1); ("H2O", 2.0, 1)]%string.
(** 537-544 *)
Definition shawRow (j : nat) : option (string * R * R) := find (fun e => String.eqb (fst (fst e)) (nth j tbl_bulk ""%string)) shawModel.
Definition coeff (j : nat) : R := match shawRow j with Some e => snd (fst e) | None => 0 end.
Definition factor (j : nat) : R := match shawRow j with Some e => snd e | None => 0 end.
Variable nlc : nat.
Definition nSiO2 : nat := 0.
(** 552-556 *)
Definition shawMoles (ox : nat -> R) (i : nat) : R := let x := ox i / omw i in if Rlt_dec 0 (factor i) then x * factor i else x.
Definition shawX (ox : nat -> R) (i : nat) : R := shawMoles ox i / (if Req_EM_T (sum nlc (shawMoles ox)) 0 then 1 else sum nlc (shawMoles ox)).
(** 559-563 *)
Definition viscosityFromShaw (t : R) (ox : nat -> R) : R :=
  let x := shawX ox in
  let v := sum nlc (fun i => coeff i * x nSiO2 * x i) / (if Rlt_dec (x nSiO2) 1 then 1 - x nSiO2 else 1) in
  (v * (10000 / t - 1.50) - 6.40) / ln 10.

(** getMeltsViscosity: strncmp(model, "GRD", MAX(strlen(model), 3)) is 0 for "GRD" only *)
Definition getMeltsViscosity (failure : bool) (model : string) (t : R) (ox : nat -> R) : bool * R :=
  let v := if String.eqb model "GRD" then viscosityFromGRD t ox else viscosityFromShaw t ox in
  ((if Req_EM_T v 0 then failure else false), v).
End Viscosity.
