(** Solution phases: what each public function returns, as an expression in
    temperature (variable 0), pressure (1), the independent compositional
    variables r[i] (2+i) and, for the conversion function, the moles m[i] of
    the components (20+i). *)
From Coq Require Import Reals QArith Qreals ZArith NArith List String.
From Verif Require Import Sym.
Import List ListNotations.

Declare Scope sym_scope.
Delimit Scope sym_scope with sym.
Bind Scope sym_scope with expr.
Infix "+" := Sym.Add : sym_scope.
Infix "-" := Sub : sym_scope.
Infix "*" := Mul : sym_scope.
Infix "/" := Div : sym_scope.
Notation "- a" := (Neg a) : sym_scope.
Arguments Num _%Q. Arguments Var _%N. Arguments Site _%N. Arguments Log _%N.

(** The conversion function conXxx of one source file, and
    the outputs of gmixXxx, hmixXxx, smixXxx, cpmixXxx, vmixXxx and actXxx
    (sources/feldspar.c and the like; ConData.v and SolnData.v). *)
Record conv : Type := mkConv {
  cv_file : string; cv_na : nat; cv_nr : nat;
  cv_r : list expr; cv_x : list expr; cv_dm : list (list expr); cv_d2m : list (list (list expr));
  cv_d3m : list (list (list (list expr)));                                                       (* inpMask SECOND: r, x, dm, d2m, d3m *)
  cv_xr : list expr; cv_dr : list (list expr);                                                   (* inpMask THIRD: x, dr *)
  cv_snap : list (nat * Q) }.                                                                    (* THIRD: x[i] = 0.0 if fabs(x[i]) < this *)
Record phase : Type := mkPhase {
  ph_file : string; ph_na : nat; ph_nr : nat; ph_con : conv;
  ph_sites : list site;
  ph_g : expr; ph_gx : list expr; ph_gxx : list (list expr); ph_gxxx : list (list (list expr));  (* gmix, dx, dx2, dx3 *)
  ph_h : expr;                                                                                   (* hmix *)
  ph_s : expr; ph_sx : list expr; ph_sxx : list (list expr);                                     (* smix, dx, dx2 *)
  ph_c : expr; ph_ct : expr; ph_cx : list expr;                                                  (* cpmix, dt, dx *)
  ph_v : expr; ph_vx : list expr; ph_vxx : list (list expr);                                     (* vmix, dx, dx2 *)
  ph_vt : expr; ph_vp : expr; ph_vtt : expr; ph_vtp : expr; ph_vpp : expr;                       (* dt, dp, dt2, dtdp, dp2 *)
  ph_vxt : list expr; ph_vxp : list expr;                                                        (* dxdt, dxdp *)
  ph_mu : list expr;                                                                             (* act: mu *)
  ph_aArg : list expr;                                                                           (* act: a[i] is the exponential of this *)
  ph_aDx : list (list expr) }.                                                                   (* act: dx[i][k] is a[i] times this *)

Local Open Scope R_scope.
(** the point at which the functions are called *)
Definition pt (t p : R) (r : nat -> R) : env :=
  fun n => match n with 0%N => t | 1%N => p | _ => r (N.to_nat n - 2)%nat end.
Definition zero : expr := Num 0.
Definition nth1 (l : list expr) (i : nat) : expr := nth i l zero.
Definition nth2 (l : list (list expr)) (i j : nat) : expr := nth j (nth i l []) zero.
Definition nth3 (l : list (list (list expr))) (i j k : nat) : expr := nth k (nth j (nth i l []) []) zero.
Definition nth4 (l : list (list (list (list expr)))) (i j k m : nat) : expr := nth m (nth k (nth j (nth i l []) []) []) zero.

Section Api.
Variable ph : phase.
Definition call (x : expr) (t p : R) (r : nat -> R) : R := denote (ph_sites ph) (pt t p r) x.
(** gmixXxx *)
Definition gmix := call (ph_g ph).
Definition gmix_dx i := call (nth1 (ph_gx ph) i).
Definition gmix_dx2 i j := call (nth2 (ph_gxx ph) i j).
Definition gmix_dx3 i j k := call (nth3 (ph_gxxx ph) i j k).
(** hmixXxx, smixXxx, cpmixXxx *)
Definition hmix := call (ph_h ph).
Definition smix := call (ph_s ph).
Definition smix_dx i := call (nth1 (ph_sx ph) i).
Definition smix_dx2 i j := call (nth2 (ph_sxx ph) i j).
Definition cpmix := call (ph_c ph).
Definition cpmix_dt := call (ph_ct ph).
Definition cpmix_dx i := call (nth1 (ph_cx ph) i).
(** vmixXxx *)
Definition vmix := call (ph_v ph).
Definition vmix_dx i := call (nth1 (ph_vx ph) i).
Definition vmix_dx2 i j := call (nth2 (ph_vxx ph) i j).
Definition vmix_dt := call (ph_vt ph).
Definition vmix_dp := call (ph_vp ph).
Definition vmix_dt2 := call (ph_vtt ph).
Definition vmix_dtdp := call (ph_vtp ph).
Definition vmix_dp2 := call (ph_vpp ph).
Definition vmix_dxdt i := call (nth1 (ph_vxt ph) i).
Definition vmix_dxdp i := call (nth1 (ph_vxp ph) i).
(** actXxx, without the exclusion criteria of mask FOURTH *)
Definition act_mu i := call (nth1 (ph_mu ph) i).
Definition act_a i t p r : R := exp (call (nth1 (ph_aArg ph) i) t p r).
Definition act_dx i k t p r : R := act_a i t p r * call (nth2 (ph_aDx ph) i k) t p r.

End Api.

Section Con.
Variable c : conv.
(** conXxx: from moles of components *)
Definition mpt (m : nat -> R) : env := fun n => if N.ltb n 20 then 0 else m (N.to_nat n - 20)%nat.
Fixpoint total (n : nat) (m : nat -> R) : R := match n with O => 0 | S n' => total n' m + m n' end.
(** the only denominator: sum of m[0..NA-1], added left to right *)
Fixpoint sumExpr (n : nat) : expr :=
  match n with O => Num 0 | S n' => match n' with O => Var 20 | _ => Sym.Add (sumExpr n') (Var (N.of_nat (20 + n'))) end end.
Definition con_sites : list site := [mkSite (sumExpr (cv_na c)) Free].
(** with sum == 0.0 every output is 0.0 *)
Definition conCall (x : expr) (m : nat -> R) : R :=
  if Req_EM_T (total (cv_na c) m) 0 then 0 else denote con_sites (mpt m) x.
Definition con_r i := conCall (nth1 (cv_r c) i).
Definition con_x i := conCall (nth1 (cv_x c) i).
Definition con_dm i j := conCall (nth2 (cv_dm c) i j).
Definition con_d2m i j k := conCall (nth3 (cv_d2m c) i j k).
Definition con_d3m i j k l := conCall (nth4 (cv_d3m c) i j k l).
(** from the independent variables; some phases set a tiny mole fraction to zero *)
Definition rpt (r : nat -> R) : env := fun n => if N.ltb n 2 then 0 else r (N.to_nat n - 2)%nat.
Definition snap (i : nat) (x : R) : R :=
  match find (fun s => Nat.eqb (fst s) i) (cv_snap c) with
  | Some (_, b) => if Rlt_dec (Rabs x) (Q2R b) then 0 else x
  | None => x
  end.
Definition con_xr i (r : nat -> R) : R := snap i (denote [] (rpt r) (nth1 (cv_xr c) i)).
Definition con_dr i j (r : nat -> R) : R := denote [] (rpt r) (nth2 (cv_dr c) i j).
End Con.
