(** Model of the table of properties filled by the library's process call:
    sources/library.c 866-1125 (built without TESTDYNAMICLIB).

    The caller's array phaseProperties is a function from positions to reals;
    each phase is a column of 11 + nc + 3 numbers: the eleven properties
    G, H, S, V, Cp, dCpdT, dVdT, dVdP, d2VdT2, d2VdTdP, d2VdP2 (numbered
    0..10), nc oxides in grams, volume fraction, density, viscosity.

    Simplifications: doubles are real numbers; the mixing properties returned
    by gmixLiq .. cpmixLiq and by the solids' gmix .. cpmix (eleven numbers
    per mole) and the end-member values in [cur] are parameters; a column is
    written as one simultaneous update (each of its cells is written once);
    phase names and indices are left out. *)
From Coq Require Import Reals List Lia Lra Bool Arith.
From Verif Require Import MassModel SupplyModel.
Open Scope R_scope.

Section Report.
Variable tab : Tab.
Variable curLiq : nat -> nat -> R.         (* (liquid[i].cur).<property> *)
Variable curSol : nat -> nat -> R.         (* (solids[c].cur).<property> *)
Variable mixLiq : (nat -> R) -> nat -> R.  (* per mole, of the composition *)
Variable mixSol : nat -> (nat -> R) -> nat -> R.
Variable viscosity : (nat -> R) -> R.      (* viscosityFromGRD(T, oxVal) *)

(** library.c 873 *)
Definition columnLength : nat := (11 + nc tab + 3)%nat.

(** 904-934: the eleven properties of liquid nl *)
Definition liqProps (s : St) (nl p : nat) : R :=
  mixLiq (liqC s nl) p * sum (nlc tab) (liqC s nl) + sum (nlc tab) (fun i => liqC s nl i * curLiq i p).
(** 943-944: gLiq, hLiq, ... over all liquids *)
Definition liqTotal (n : Node) (p : nat) : R :=
  if Req_EM_T (liquidMass n) 0 then 0 else sum (nLiq (matter n)) (fun nl => liqProps (matter n) nl p).
(** 893, 937-938: oxVal accumulates over the liquids; gramTot adds the running
    values once per liquid *)
Definition liqOx (s : St) (upto o : nat) : R :=
  sum upto (fun nl => sum (nlc tab) (fun j => liqToOx tab j o * liqC s nl j * omw tab o)).
Definition liqGrams (s : St) : R := sum (nLiq s) (fun nl => sum (nc tab) (liqOx s (S nl))).

(** V, dVdT, dVdP and its derivatives are reported in cc: times 10 *)
Definition scale (p : nat) (x : R) : R :=
  if Nat.eqb p 3 || Nat.leb 6 p then x * 10 else x.

(** One column: 948-964 and 1074-1089. *)
Definition column (props ox : nat -> R) (vol dens visc : R) (c : nat) : R :=
  if Nat.ltb c 11 then scale c (props c)
  else if Nat.ltb c (11 + nc tab) then ox (c - 11)%nat
  else if Nat.eqb c (11 + nc tab) then vol
  else if Nat.eqb c (11 + nc tab + 1) then dens
  else visc.
Definition putColumn (k : nat) (col : nat -> R) (buf : nat -> R) : nat -> R :=
  fun x => if Nat.leb (k * columnLength) x && Nat.ltb x ((k + 1) * columnLength)
           then col (x - k * columnLength)%nat else buf x.

Definition divide (a b : R) : R := if Req_EM_T b 0 then 0 else 100 * a / b.

(** 880-970: the liquid column *)
Definition liqColumn (n : Node) : nat -> R :=
  let s := matter n in
  column (liqTotal n) (liqOx s (nLiq s)) (liqTotal n 3 * 10)
         (divide (liqGrams s) (liqTotal n 3)) (viscosity (liqOx s (nLiq s))).

(** 978-989 and 1011-1045: the eleven properties of column ns of phase j *)
Definition solComp (s : St) (j ns : nat) : nat -> R := fun i => solC s (j+1+i)%nat ns.
Definition solProps (s : St) (j ns p : nat) : R :=
  if Nat.eqb (na tab j) 1 then solC s j ns * curSol j p
  else mixSol j (solComp s j ns) p * solC s j ns + sum (na tab j) (fun i => solComp s j ns i * curSol (j+1+i)%nat p).
(** 991-1001 and 1047-1057: what is added to the totals; for a solution lines
    1054-1057 add dVdT (property 6) to the last four *)
Definition addedToTotal (s : St) (j ns p : nat) : R :=
  if Nat.eqb (na tab j) 1 then solC s j ns * curSol j p
  else solProps s j ns (if Nat.ltb p 7 then p else 6%nat).
(** 1003-1006 and 1059-1063 *)
Definition solOx (s : St) (j ns o : nat) : R :=
  if Nat.eqb (na tab j) 1 then solToOx tab j o * omw tab o * solC s j ns
  else sum (na tab j) (fun k => solToOx tab (j+1+k) o * solComp s j ns k * omw tab o).
Definition solColumn (s : St) (j ns : nat) : nat -> R :=
  column (solProps s j ns) (solOx s j ns) (solProps s j ns 3 * 10)
         (divide (sum (nc tab) (solOx s j ns)) (solProps s j ns 3)) 0.

Record Out : Type := mkOut { buf : nat -> R; numberPhases : nat; total : nat -> R }.

(** 973-1095 *)
Definition reportSolid (s : St) (j ns : nat) (out : Out) : Out :=
  mkOut (putColumn (numberPhases out) (solColumn s j ns) (buf out)) (S (numberPhases out))
        (fun p => total out p + addedToTotal s j ns p).
Definition reportSolids (s : St) (out : Out) : Out :=
  loop (npc tab) (fun j out => loop (nSol s j) (reportSolid s j) out) out.

(** 1099-1114: the first column *)
Definition sysVolume (n : Node) (out : Out) : R := liqTotal n 3 + total out 3%nat.
Definition sysColumn (n : Node) (out : Out) : nat -> R :=
  let grams := fun o => bulk (matter n) o * omw tab o in
  column (fun p => liqTotal n p + total out p) grams 1
         (divide (sum (nc tab) grams) (sysVolume n out)) 0.

(** 1123-1125: volumes become fractions; i runs up to and including
    numberPhases *)
Definition fractions (n : Node) (out : Out) (b : nat -> R) : nat -> R :=
  if Req_EM_T (sysVolume n out) 0 then b
  else fun x => if Nat.leb columnLength x && Nat.ltb x ((numberPhases out + 1) * columnLength)
                   && Nat.eqb (x mod columnLength) (11 + nc tab)
                then b x / (10 * sysVolume n out) else b x.

(** The whole block: the caller's array before, the array and number of
    phases after. *)
Definition report (n : Node) (b0 : nat -> R) : (nat -> R) * nat :=
  let out0 :=
    if Req_EM_T (liquidMass n) 0 then mkOut b0 1 (fun _ => 0)
    else mkOut (putColumn 1 (liqColumn n) b0) 2 (fun _ => 0) in
  let out := reportSolids (matter n) out0 in
  let b := putColumn 0 (sysColumn n out) (buf out) in
  (fractions n out b, numberPhases out).
End Report.
