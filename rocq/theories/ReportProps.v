(** C34, C55, C56: the table of properties returned by the process call. *)
From Coq Require Import Reals List Lia Lra Bool Arith.
From Verif Require Import MassModel MassSpec MassProofs MassOps MassDrop SupplyModel ReportModel.
Open Scope R_scope.

(** ** Specification: reading the caller's array. Column k of a table with
    [w] oxides, entry c; column 0 is the system, columns 1 .. np-1 the phases. *)
Definition entry (w : nat) (b : nat -> R) (k c : nat) : R := b (k * (11 + w + 3) + c)%nat.
Definition sumOfPhases (w : nat) (b : nat -> R) (np c : nat) : R := sum (np - 1) (fun k => entry w b (S k) c).

(** Only phase rows have instances, and the solids that are solutions. *)
Definition noSolution (tab : Tab) (s : St) : Prop := forall j, (j < npc tab)%nat -> nSol s j <> O -> na tab j = 1%nat.

(** ** Proofs *)
Section P.
Variable tab : Tab.
Variable curLiq : nat -> nat -> R.
Variable curSol : nat -> nat -> R.
Variable mixLiq : (nat -> R) -> nat -> R.
Variable mixSol : nat -> (nat -> R) -> nat -> R.
Variable viscosity : (nat -> R) -> R.

Notation CL := (columnLength tab).
Notation report := (report tab curLiq curSol mixLiq mixSol viscosity).
Notation solColumn := (solColumn tab curSol mixSol).
Notation solProps := (solProps tab curSol mixSol).
Notation solOx := (solOx tab).
Notation addedToTotal := (addedToTotal tab curSol mixSol).
Notation liqTotal := (liqTotal tab curLiq mixLiq).
Notation liqColumn := (liqColumn tab curLiq mixLiq viscosity).
Notation entry := (entry (nc tab)).
Notation sumOfPhases := (sumOfPhases (nc tab)).
Notation putColumn := (putColumn tab).

Lemma CL_eq : CL = (11 + nc tab + 3)%nat. Proof. reflexivity. Qed.

Lemma entry_put k k' c col b : (c < CL)%nat ->
  entry (putColumn k col b) k' c = if Nat.eqb k' k then col c else entry b k' c.
Proof.
  intros Hc. unfold ReportProps.entry, ReportModel.putColumn. rewrite CL_eq in *. set (w := (11 + nc tab + 3)%nat) in *.
  destruct (Nat.eqb_spec k' k) as [->|N].
  - destruct (Nat.leb_spec (k * w) (k * w + c)); [|lia].
    destruct (Nat.ltb_spec (k * w + c) ((k + 1) * w)); [|nia]. cbn [andb]. f_equal. lia.
  - destruct (Nat.leb_spec (k * w) (k' * w + c)); cbn [andb]; auto.
    destruct (Nat.ltb_spec (k' * w + c) ((k + 1) * w)); auto. exfalso. apply N.
    assert (k' < k + 1)%nat by nia. assert (k < k' + 1)%nat by nia. lia.
Qed.

Lemma sumOfPhases_put np c col b : (1 <= np)%nat -> (c < CL)%nat ->
  sumOfPhases (putColumn np col b) (S np) c = sumOfPhases b np c + col c.
Proof.
  intros Hn Hc. unfold ReportProps.sumOfPhases. replace (S np - 1)%nat with (S (np - 1)) by lia.
  cbn [sum]. f_equal.
  - apply sum_ext. intros k Hk. rewrite entry_put by auto. destruct (Nat.eqb_spec (S k) np); [lia|auto].
  - rewrite entry_put by auto. destruct (Nat.eqb_spec (S (np - 1)) np); [auto|lia].
Qed.

Notation reportSolids := (reportSolids tab curSol mixSol).
Lemma reportSolids_spec s out : (1 <= numberPhases out)%nat ->
  let out' := reportSolids s out in
  numberPhases out' = (numberPhases out + fold_right plus O (map (nSol s) (seq 0 (npc tab))))%nat /\
  (forall c, (c < CL)%nat -> sumOfPhases (buf out') (numberPhases out') c =
     sumOfPhases (buf out) (numberPhases out) c + sum (npc tab) (fun j => sum (nSol s j) (fun ns => solColumn s j ns c))) /\
  (forall p, total out' p = total out p + sum (npc tab) (fun j => sum (nSol s j) (fun ns => addedToTotal s j ns p))) /\
  (forall k c, (c < CL)%nat -> (numberPhases out' <= k \/ k < numberPhases out)%nat -> entry (buf out') k c = entry (buf out) k c) /\
  (forall k, (numberPhases out <= k < numberPhases out')%nat -> exists j ns, (j < npc tab)%nat /\ (ns < nSol s j)%nat /\
     forall c, (c < CL)%nat -> entry (buf out') k c = solColumn s j ns c).
Proof.
  intros Hn. cbv zeta. unfold ReportModel.reportSolids.
  assert (G : forall n,
    let out' := loop n (fun j out => loop (nSol s j) (reportSolid tab curSol mixSol s j) out) out in
    numberPhases out' = (numberPhases out + fold_right plus O (map (nSol s) (seq 0 n)))%nat /\
    (forall c, (c < CL)%nat -> sumOfPhases (buf out') (numberPhases out') c =
       sumOfPhases (buf out) (numberPhases out) c + sum n (fun j => sum (nSol s j) (fun ns => solColumn s j ns c))) /\
    (forall p, total out' p = total out p + sum n (fun j => sum (nSol s j) (fun ns => addedToTotal s j ns p))) /\
    (forall k c, (c < CL)%nat -> (numberPhases out' <= k \/ k < numberPhases out)%nat -> entry (buf out') k c = entry (buf out) k c) /\
    (forall k, (numberPhases out <= k < numberPhases out')%nat -> exists j ns, (j < n)%nat /\ (ns < nSol s j)%nat /\
       forall c, (c < CL)%nat -> entry (buf out') k c = solColumn s j ns c)).
  2:{ exact (G (npc tab)). }
  induction n as [|n IH]; cbv zeta.
  - cbn. split; [lia|]. split; [intros; ring|]. split; [intros; ring|]. split; [auto|]. intros k Hk. lia.
  - rewrite loop_S. set (o1 := loop n _ out) in *. cbv zeta in IH. destruct IH as (N1 & S1 & T1 & E1 & X1).
    assert (H : forall m,
      let o2 := loop m (reportSolid tab curSol mixSol s n) o1 in
      numberPhases o2 = (numberPhases o1 + m)%nat /\
      (forall c, (c < CL)%nat -> sumOfPhases (buf o2) (numberPhases o2) c =
         sumOfPhases (buf o1) (numberPhases o1) c + sum m (fun ns => solColumn s n ns c)) /\
      (forall p, total o2 p = total o1 p + sum m (fun ns => addedToTotal s n ns p)) /\
      (forall k c, (c < CL)%nat -> (numberPhases o2 <= k \/ k < numberPhases o1)%nat -> entry (buf o2) k c = entry (buf o1) k c) /\
      (forall k, (numberPhases o1 <= k < numberPhases o2)%nat -> exists ns, (ns < m)%nat /\
         forall c, (c < CL)%nat -> entry (buf o2) k c = solColumn s n ns c)).
    { induction m as [|m IHm]; cbv zeta.
      - cbn. split; [lia|]. split; [intros; ring|]. split; [intros; ring|]. split; [auto|]. intros k Hk. lia.
      - rewrite loop_S. set (o2 := loop m _ o1) in *. cbv zeta in IHm. destruct IHm as (N2 & S2 & T2 & E2 & X2).
        unfold reportSolid. cbn [numberPhases buf total].
        split; [lia|]. split; [|split; [|split]].
        + intros c Hc. rewrite sumOfPhases_put by (auto; lia). rewrite (S2 c Hc). cbn [sum]. ring.
        + intros p. rewrite T2. cbn [sum]. ring.
        + intros k c Hc Hk. rewrite entry_put by auto. destruct (Nat.eqb_spec k (numberPhases o2)); [lia|].
          apply E2; auto; lia.
        + intros k Hk. destruct (Nat.eq_dec k (numberPhases o2)) as [->|Nk].
          * exists m. split; [lia|]. intros c Hc. rewrite entry_put by auto. now rewrite Nat.eqb_refl.
          * destruct (X2 k ltac:(lia)) as (ns & Hns & X). exists ns. split; [lia|]. intros c Hc.
            rewrite entry_put by auto. destruct (Nat.eqb_spec k (numberPhases o2)); [lia|]. auto. }
    specialize (H (nSol s n)). cbv zeta in H. set (o2 := loop (nSol s n) _ o1) in *. destruct H as (N2 & S2 & T2 & E2 & X2).
    split; [|split; [|split; [|split]]].
    + rewrite N2, N1, seq_S, map_app, fold_right_app. cbn [map fold_right plus]. rewrite Nat.add_0_r.
      clear. generalize (map (nSol s) (seq 0 n)). intros l. induction l; cbn; lia.
    + intros c Hc. rewrite (S2 c Hc), (S1 c Hc). cbn [sum]. ring.
    + intros p. rewrite T2, T1. cbn [sum]. ring.
    + intros k c Hc Hk. rewrite E2 by (auto; lia). apply E1; auto; lia.
    + intros k Hk. destruct (Nat.lt_ge_cases k (numberPhases o1)) as [L|L].
      * destruct (X1 k ltac:(lia)) as (j & ns & Hj & Hs & X). exists j, ns. split; [lia|]. split; auto.
        intros c Hc. rewrite E2 by (auto; lia). auto.
      * destruct (X2 k ltac:(lia)) as (ns & Hs & X). exists n, ns. split; [lia|]. split; auto.
Qed.

(** the array just before the volumes become fractions *)
Lemma report_eq n b0 : exists out, report n b0 = (fractions tab curLiq mixLiq n out (putColumn 0 (sysColumn tab curLiq mixLiq n out) (buf out)), numberPhases out) /\
  (1 <= numberPhases out)%nat /\
  (forall c, (c < CL)%nat -> sumOfPhases (buf out) (numberPhases out) c =
     (if Req_EM_T (liquidMass n) 0 then 0 else liqColumn n c) +
     sum (npc tab) (fun j => sum (nSol (matter n) j) (fun ns => solColumn (matter n) j ns c))) /\
  (forall p, total out p = sum (npc tab) (fun j => sum (nSol (matter n) j) (fun ns => addedToTotal (matter n) j ns p))) /\
  (forall k c, (c < CL)%nat -> (numberPhases out <= k)%nat -> entry (buf out) k c = entry b0 k c) /\
  (forall k, (1 <= k < numberPhases out)%nat ->
     (liquidMass n <> 0 /\ k = 1%nat /\ forall c, (c < CL)%nat -> entry (buf out) k c = liqColumn n c) \/
     exists j ns, (j < npc tab)%nat /\ (ns < nSol (matter n) j)%nat /\ forall c, (c < CL)%nat -> entry (buf out) k c = solColumn (matter n) j ns c).
Proof.
  unfold ReportModel.report. cbv zeta.
  set (out0 := if Req_EM_T (liquidMass n) 0 then _ else _).
  assert (N0 : (1 <= numberPhases out0)%nat) by (unfold out0; destruct (Req_EM_T _ 0); cbn; lia).
  assert (N02 : liquidMass n <> 0 -> numberPhases out0 = 2%nat)
    by (intros; unfold out0; destruct (Req_EM_T _ 0); [contradiction|reflexivity]).
  destruct (reportSolids_spec (matter n) out0 N0) as (N & Sm & T & E & X).
  exists (reportSolids (matter n) out0). split; [reflexivity|]. split; [lia|].
  split; [|split; [|split]].
  - intros c Hc. rewrite (Sm c Hc). f_equal. unfold out0. destruct (Req_EM_T (liquidMass n) 0); cbn [buf numberPhases].
    + unfold ReportProps.sumOfPhases. cbn. reflexivity.
    + rewrite sumOfPhases_put by (auto; lia). unfold ReportProps.sumOfPhases at 1. cbn. ring.
  - intros p. rewrite T. unfold out0. destruct (Req_EM_T (liquidMass n) 0); cbn [total]; ring.
  - intros k c Hc Hk. rewrite E by auto. unfold out0. destruct (Req_EM_T (liquidMass n) 0); cbn [buf]; auto.
    rewrite entry_put by auto. destruct (Nat.eqb_spec k 1); [|auto].
    exfalso. specialize (N02 n0). lia.
  - intros k Hk. destruct (Nat.lt_ge_cases k (numberPhases out0)) as [L|L].
    + left. destruct (Req_EM_T (liquidMass n) 0) as [Z|NZ].
      { exfalso. unfold out0 in L. cbn [numberPhases] in L. lia. }
      specialize (N02 NZ). split; auto. split; [lia|]. intros c Hc. rewrite E by (auto; lia).
      unfold out0. cbn [buf]. rewrite entry_put by auto. destruct (Nat.eqb_spec k 1); [auto|lia].
    + right. apply X. lia.
Qed.

Lemma CL_mod k c : (c < CL)%nat -> ((k * CL + c) mod CL = c)%nat.
Proof. intros. rewrite Nat.add_comm, Nat.mod_add by lia. now apply Nat.mod_small. Qed.

Lemma fractions_other n out b k c : (c < CL)%nat -> c <> (11 + nc tab)%nat ->
  entry (fractions tab curLiq mixLiq n out b) k c = entry b k c.
Proof.
  intros Hc N. unfold fractions. destruct (Req_EM_T _ 0); auto. unfold ReportProps.entry.
  change (11 + nc tab + 3)%nat with CL. rewrite CL_mod by auto.
  destruct (Nat.eqb_spec c (11 + nc tab)); [contradiction|]. now rewrite andb_false_r.
Qed.
Lemma fractions_volume n out b k : (1 <= k)%nat ->
  entry (fractions tab curLiq mixLiq n out b) k (11 + nc tab) =
  if Req_EM_T (sysVolume tab curLiq mixLiq n out) 0 then entry b k (11 + nc tab)
  else if Nat.leb k (numberPhases out) then entry b k (11 + nc tab) / (10 * sysVolume tab curLiq mixLiq n out)
  else entry b k (11 + nc tab).
Proof.
  intros Hk. unfold fractions. destruct (Req_EM_T _ 0); auto. unfold ReportProps.entry.
  change (11 + nc tab + 3)%nat with CL.
  assert (H : (11 + nc tab < CL)%nat) by (rewrite CL_eq; lia).
  rewrite CL_mod by auto. rewrite Nat.eqb_refl, andb_true_r.
  destruct (Nat.leb_spec CL (k * CL + (11 + nc tab))); [|nia]. cbn [andb].
  destruct (Nat.leb_spec k (numberPhases out)).
  - destruct (Nat.ltb_spec (k * CL + (11 + nc tab)) ((numberPhases out + 1) * CL)); [reflexivity|nia].
  - destruct (Nat.ltb_spec (k * CL + (11 + nc tab)) ((numberPhases out + 1) * CL)); [|reflexivity].
    exfalso. assert ((numberPhases out + 1) * CL <= k * CL)%nat by (apply Nat.mul_le_mono_r; lia). lia.
Qed.

Lemma sumOfPhases_sys np c col b : (c < CL)%nat -> sumOfPhases (putColumn 0 col b) np c = sumOfPhases b np c.
Proof. intros Hc. unfold ReportProps.sumOfPhases. apply sum_ext. intros k Hk. now rewrite entry_put. Qed.

Lemma scale_plus p a b : scale p (a + b) = scale p a + scale p b.
Proof. unfold scale. destruct (_ || _); ring. Qed.
Lemma scale_0 p : scale p 0 = 0.
Proof. unfold scale. destruct (_ || _); ring. Qed.
Lemma scale_sum p n f : scale p (sum n f) = sum n (fun i => scale p (f i)).
Proof. induction n; cbn [sum]; [apply scale_0|]. now rewrite scale_plus, IHn. Qed.

(** the property rows, when what is added to the totals is the row's own value *)
Lemma totals n b0 p : (p < 11)%nat ->
  (forall j ns, (j < npc tab)%nat -> (ns < nSol (matter n) j)%nat -> addedToTotal (matter n) j ns p = solProps (matter n) j ns p) ->
  let (b, np) := report n b0 in entry b 0 p = sumOfPhases b np p.
Proof.
  intros Hp A. destruct (report_eq n b0) as (out & -> & _ & Sm & T & _).
  assert (Hc : (p < CL)%nat) by (rewrite CL_eq; lia).
  unfold ReportProps.sumOfPhases.
  rewrite (sum_ext _ _ (fun k => entry (buf out) (S k) p)).
  2:{ intros k Hk. rewrite fractions_other by (auto; lia). now rewrite entry_put. }
  change (sum (numberPhases out - 1) (fun k => entry (buf out) (S k) p)) with (sumOfPhases (buf out) (numberPhases out) p).
  rewrite (Sm p Hc). rewrite fractions_other by (auto; lia). rewrite entry_put by auto. cbn [Nat.eqb].
  unfold sysColumn. cbv zeta. unfold column at 1. destruct (Nat.ltb_spec p 11); [|lia].
  rewrite scale_plus, T, scale_sum. f_equal.
  - unfold ReportModel.liqColumn, column. cbv zeta. destruct (Nat.ltb_spec p 11); [|lia].
    unfold ReportModel.liqTotal. destruct (Req_EM_T (liquidMass n) 0); [apply scale_0|reflexivity].
  - apply sum_ext. intros j Hj. rewrite scale_sum. apply sum_ext. intros ns Hns. rewrite (A j ns Hj Hns).
    unfold ReportModel.solColumn, column. destruct (Nat.ltb_spec p 11); [reflexivity|lia].
Qed.
End P.

(** ** C34: G, H, S, V, Cp, dCp/dT and dV/dT of the system are the sums over
    the phases listed, for every assemblage, composition and caller's array. *)
Theorem C34_first_seven_partial : forall tab curLiq curSol mixLiq mixSol viscosity n b0 p,
  (p <= 6)%nat ->
  let (b, np) := report tab curLiq curSol mixLiq mixSol viscosity n b0 in
  entry (nc tab) b 0 p = sumOfPhases (nc tab) b np p.
Proof.
  intros. apply totals; [lia|]. intros j ns _ _. unfold addedToTotal.
  destruct (Nat.eqb (na tab j) 1) eqn:E; [unfold solProps; now rewrite E|].
  destruct (Nat.ltb_spec p 7); [reflexivity|lia].
Qed.
(** the same as a property of its own (C106) *)
Theorem C106_first_seven : forall tab curLiq curSol mixLiq mixSol viscosity n b0 p,
  (p <= 6)%nat ->
  let (b, np) := report tab curLiq curSol mixLiq mixSol viscosity n b0 in
  entry (nc tab) b 0 p = sumOfPhases (nc tab) b np p.
Proof. exact C34_first_seven_partial. Qed.

(** All eleven, as long as no solid solution is present. *)
Theorem C34_all_eleven_without_solutions_partial : forall tab curLiq curSol mixLiq mixSol viscosity n b0 p,
  (p < 11)%nat -> noSolution tab (matter n) ->
  let (b, np) := report tab curLiq curSol mixLiq mixSol viscosity n b0 in
  entry (nc tab) b 0 p = sumOfPhases (nc tab) b np p.
Proof.
  intros tab curLiq curSol mixLiq mixSol viscosity n b0 p Hp NS. apply totals; [auto|]. intros j ns Hj Hns.
  unfold addedToTotal, solProps. rewrite (NS j Hj ltac:(lia)). reflexivity.
Qed.
(** the same as a property of its own (C106) *)
Theorem C106_all_without_solutions : forall tab curLiq curSol mixLiq mixSol viscosity n b0 p,
  (p < 11)%nat -> noSolution tab (matter n) ->
  let (b, np) := report tab curLiq curSol mixLiq mixSol viscosity n b0 in
  entry (nc tab) b 0 p = sumOfPhases (nc tab) b np p.
Proof. exact C34_all_eleven_without_solutions_partial. Qed.

(** C34 as stated is false: with a solution present, dV/dP of the system is
    computed with dV/dT of that solution. Exactly: *)
Definition oneSolution : Tab := mkTab 1 3 1 (fun i => Nat.eqb i 0) (fun _ => 2%nat) (fun _ _ => 1) (fun _ _ => 1)
  (fun _ _ => 1) (fun _ _ => 1) (fun _ => 1) (fun _ => 1) (fun _ => 0) (fun _ => 0) (fun _ => false).
Definition oneSolutionNode : Node :=
  mkNode (mkSt false 1 (fun _ _ => 0) (fun i => if Nat.eqb i 0 then 1%nat else O)
            (fun i ns => if Nat.eqb i 0 then 2 else 1) (fun _ => 2) (fun _ _ => 0) (fun _ => 0) 0 0 false) 0.
Theorem C34_refuted : 
  let (b, np) := report oneSolution (fun _ _ => 0) (fun _ p => if Nat.eqb p 6 then 1 else 0) (fun _ _ => 0) (fun _ _ _ => 0)
                   (fun _ => 0) oneSolutionNode (fun _ => 0) in
  entry 1 b 0 7 = 20 /\ sumOfPhases 1 b np 7 = 0.
Proof.
  set (r := report _ _ _ _ _ _ _ _). destruct r as [b np] eqn:E. unfold r in E.
  destruct (report_eq oneSolution (fun _ _ => 0) (fun _ p => if Nat.eqb p 6 then 1 else 0) (fun _ _ => 0) (fun _ _ _ => 0)
                   (fun _ => 0) oneSolutionNode (fun _ => 0)) as (out & Eo & _ & Sm & T & _).
  rewrite E in Eo. injection Eo as -> ->.
  assert (Hc : (7 < columnLength oneSolution)%nat) by (cbn; lia).
  split.
  - change 1%nat with (nc oneSolution). rewrite fractions_other by (auto; cbn; lia). rewrite entry_put by auto. cbn [Nat.eqb].
    unfold sysColumn, column. cbv zeta. cbn [Nat.ltb Nat.leb]. unfold scale. cbn [Nat.eqb Nat.leb orb]. rewrite T.
    unfold liqTotal. cbn [oneSolutionNode liquidMass]. destruct (Req_EM_T 0 0); [|lra].
    unfold addedToTotal, solProps, solComp. cbn. ring.
  - unfold sumOfPhases. rewrite (sum_ext _ _ (fun k => entry 1 (buf out) (S k) 7)).
    2:{ intros k Hk. change 1%nat with (nc oneSolution). rewrite fractions_other by (auto; cbn; lia). now rewrite entry_put. }
    change (sum (numberPhases out - 1) (fun k => entry 1 (buf out) (S k) 7)) with (sumOfPhases (nc oneSolution) (buf out) (numberPhases out) 7).
    rewrite (Sm 7%nat Hc). cbn [oneSolutionNode liquidMass]. destruct (Req_EM_T 0 0); [|lra].
    unfold solColumn, column, solProps, solComp, scale. cbn. ring.
Qed.

(** ** C55: the oxides listed for the phases add up to those listed for the
    system when the phases add up to the bulk and an absent liquid is empty. *)
Theorem C55_oxides : forall tab curLiq curSol mixLiq mixSol viscosity n b0 o,
  (o < nc tab)%nat -> balanced tab (matter n) -> counts tab (matter n) ->
  (liquidMass n = 0 -> inLiquids tab (oxide tab o) (matter n) = 0) ->
  let (b, np) := report tab curLiq curSol mixLiq mixSol viscosity n b0 in
  entry (nc tab) b 0 (11 + o) = sumOfPhases (nc tab) b np (11 + o) /\
  entry (nc tab) b 0 (11 + o) = bulk (matter n) o * omw tab o.
Proof.
  intros tab curLiq curSol mixLiq mixSol viscosity n b0 o Ho B Cn Em.
  destruct (report_eq tab curLiq curSol mixLiq mixSol viscosity n b0) as (out & -> & _ & Sm & _).
  assert (Hc : (11 + o < columnLength tab)%nat) by (unfold columnLength; lia).
  assert (S0 : entry (nc tab) (fractions tab curLiq mixLiq n out
     (putColumn tab 0 (sysColumn tab curLiq mixLiq n out) (buf out))) 0 (11 + o) = bulk (matter n) o * omw tab o).
  { rewrite fractions_other by (auto; lia). rewrite entry_put by auto. change (Nat.eqb 0 0) with true. cbv iota.
    unfold sysColumn, column. cbv zeta. destruct (Nat.ltb_spec (11 + o) 11); [lia|].
    destruct (Nat.ltb_spec (11 + o) (11 + nc tab)); [|lia]. now replace (11 + o - 11)%nat with o by lia. }
  split; [|exact S0]. rewrite S0.
  unfold sumOfPhases. rewrite (sum_ext _ _ (fun k => entry (nc tab) (buf out) (S k) (11 + o))).
  2:{ intros k Hk. rewrite fractions_other by (auto; lia). now rewrite entry_put. }
  change (sum (numberPhases out - 1) (fun k => entry (nc tab) (buf out) (S k) (11 + o)))
    with (sumOfPhases (nc tab) (buf out) (numberPhases out) (11 + o)).
  rewrite (Sm _ Hc). rewrite (B o Ho). unfold amount. rewrite Rmult_plus_distr_r, Rplus_comm. f_equal.
  - destruct (Req_EM_T (liquidMass n) 0) as [Z|_]; [rewrite (Em Z); ring|].
    unfold liqColumn, column. cbv zeta. destruct (Nat.ltb_spec (11 + o) 11); [lia|].
    destruct (Nat.ltb_spec (11 + o) (11 + nc tab)); [|lia]. replace (11 + o - 11)%nat with o by lia.
    unfold liqOx, inLiquids. rewrite Rmult_comm, <- sum_scal. apply sum_ext. intros nl Hnl.
    unfold inLiquid. rewrite <- sum_scal. apply sum_ext. intros j Hj. cbn [perLiq oxide]. ring.
  - unfold inSolids. rewrite Rmult_comm, <- sum_scal. apply sum_ext. intros j Hj.
    destruct (isPhase tab j) eqn:P.
    + rewrite <- sum_scal. apply sum_ext. intros ns Hns. unfold solColumn, column.
      destruct (Nat.ltb_spec (11 + o) 11); [lia|]. destruct (Nat.ltb_spec (11 + o) (11 + nc tab)); [|lia].
      replace (11 + o - 11)%nat with o by lia. unfold solOx, solidAmount, solComp. cbn [perSol oxide].
      destruct (Nat.eqb (na tab j) 1); [ring|]. rewrite <- sum_scal. apply sum_ext. intros k Hk. ring.
    + destruct Cn as (N0 & _). rewrite (N0 j P). cbn. ring.
Qed.

Lemma column_volume tab props ox vol dens visc : column tab props ox vol dens visc (11 + nc tab) = vol.
Proof.
  unfold column. destruct (Nat.ltb_spec (11 + nc tab) 11); [lia|]. destruct (Nat.ltb_spec (11 + nc tab) (11 + nc tab)); [lia|].
  now rewrite Nat.eqb_refl.
Qed.
Lemma column_3 tab props ox vol dens visc : column tab props ox vol dens visc 3 = props 3%nat * 10.
Proof. reflexivity. Qed.

(** The volume fractions listed add up to 1. *)
Theorem C55_volume_fractions : forall tab curLiq curSol mixLiq mixSol viscosity n b0,
  let (b, np) := report tab curLiq curSol mixLiq mixSol viscosity n b0 in
  entry (nc tab) b 0 3 <> 0 -> sumOfPhases (nc tab) b np (11 + nc tab) = 1.
Proof.
  intros tab curLiq curSol mixLiq mixSol viscosity n b0.
  pose proof (C34_first_seven_partial tab curLiq curSol mixLiq mixSol viscosity n b0 3 ltac:(lia)) as V.
  destruct (report_eq tab curLiq curSol mixLiq mixSol viscosity n b0) as (out & Eo & N1 & Sm & _ & _ & X).
  rewrite Eo in *. intros NZ.
  assert (H3 : (3 < columnLength tab)%nat) by (unfold columnLength; lia).
  assert (Hv : (11 + nc tab < columnLength tab)%nat) by (unfold columnLength; lia).
  set (sv := sysVolume tab curLiq mixLiq n out).
  assert (E3 : entry (nc tab) (fractions tab curLiq mixLiq n out
     (putColumn tab 0 (sysColumn tab curLiq mixLiq n out) (buf out))) 0 3 = 10 * sv).
  { rewrite fractions_other by (auto; lia). rewrite entry_put by auto. change (Nat.eqb 0 0) with true. cbv iota.
    unfold sysColumn, column. cbv zeta. cbn [Nat.ltb Nat.leb]. unfold scale. cbn [Nat.eqb orb].
    unfold sv, sysVolume. ring. }
  rewrite E3 in *. assert (sv <> 0) by (intros E; apply NZ; rewrite E; ring).
  unfold sumOfPhases in *.
  rewrite (sum_ext _ _ (fun k => / (10 * sv) * entry (nc tab) (fractions tab curLiq mixLiq n out
     (putColumn tab 0 (sysColumn tab curLiq mixLiq n out) (buf out))) (S k) 3)).
  - rewrite sum_scal, <- V. field. auto.
  - intros k Hk. rewrite fractions_volume by lia. fold sv. destruct (Req_EM_T sv 0); [contradiction|].
    destruct (Nat.leb_spec (S k) (numberPhases out)); [|lia].
    rewrite fractions_other by (auto; lia). rewrite !entry_put by auto. cbn [Nat.eqb].
    unfold Rdiv. rewrite Rmult_comm. f_equal.
    destruct (X (S k) ltac:(lia)) as [(_ & _ & C)|(j & ns & _ & _ & C)]; rewrite !C by auto.
    + unfold liqColumn. cbv zeta. now rewrite column_volume, column_3.
    + unfold solColumn. now rewrite column_volume, column_3.
Qed.

(** The density (kg/m3) of every phase listed is its mass over its volume (cc);
    with at most one liquid. *)
Theorem C55_density : forall tab curLiq curSol mixLiq mixSol viscosity n b0,
  (nLiq (matter n) <= 1)%nat ->
  let (b, np) := report tab curLiq curSol mixLiq mixSol viscosity n b0 in
  forall k, (1 <= k < np)%nat -> entry (nc tab) b k 3 <> 0 ->
  entry (nc tab) b k (11 + nc tab + 1) * entry (nc tab) b k 3 = 1000 * sum (nc tab) (fun o => entry (nc tab) b k (11 + o)).
Proof.
  intros tab curLiq curSol mixLiq mixSol viscosity n b0 L1.
  destruct (report_eq tab curLiq curSol mixLiq mixSol viscosity n b0) as (out & -> & _ & _ & _ & _ & X).
  intros k Hk. destruct k as [|k]; [lia|].
  assert (F : forall c, (c < columnLength tab)%nat -> c <> (11 + nc tab)%nat ->
    entry (nc tab) (fractions tab curLiq mixLiq n out (putColumn tab 0 (sysColumn tab curLiq mixLiq n out) (buf out))) (S k) c
    = entry (nc tab) (buf out) (S k) c).
  { intros c Hc Nc. rewrite fractions_other by auto. now rewrite entry_put. }
  rewrite !F by (unfold columnLength; lia).
  rewrite (sum_ext _ (fun o => entry _ _ _ (11 + o)) (fun o => entry (nc tab) (buf out) (S k) (11 + o)))
    by (intros o Ho; apply F; unfold columnLength; lia).
  assert (G : forall props ox vol dens visc, (forall c, (c < columnLength tab)%nat -> entry (nc tab) (buf out) (S k) c = column tab props ox vol dens visc c) ->
    entry (nc tab) (buf out) (S k) 3 = props 3%nat * 10 /\ entry (nc tab) (buf out) (S k) (11 + nc tab + 1) = dens /\
    forall o, (o < nc tab)%nat -> entry (nc tab) (buf out) (S k) (11 + o) = ox o).
  { intros props ox vol dens visc C. split; [|split]; [rewrite C by (unfold columnLength; lia)..|].
    - unfold column, scale. cbn [Nat.ltb Nat.leb Nat.eqb orb]. ring.
    - unfold column. destruct (Nat.ltb_spec (11 + nc tab + 1) 11); [lia|].
      destruct (Nat.ltb_spec (11 + nc tab + 1) (11 + nc tab)); [lia|].
      destruct (Nat.eqb_spec (11 + nc tab + 1) (11 + nc tab)); [lia|]. now rewrite Nat.eqb_refl.
    - intros o Ho. rewrite C by (unfold columnLength; lia). unfold column. destruct (Nat.ltb_spec (11 + o) 11); [lia|].
      destruct (Nat.ltb_spec (11 + o) (11 + nc tab)); [|lia]. f_equal. lia. }
  destruct (X (S k) ltac:(lia)) as [(_ & _ & C)|(j & ns & _ & _ & C)].
  - destruct (G _ _ _ _ _ C) as (-> & -> & O). rewrite (sum_ext _ _ _ O).
    unfold divide. intros NZ. destruct (Req_EM_T _ 0) as [Z|N]; [exfalso; apply NZ; rewrite Z; ring|].
    unfold liqGrams. destruct (nLiq (matter n)) as [|[|m]]; [| |lia].
    + cbn [sum]. rewrite (sum_0 (nc tab)) by (intros; reflexivity). field. auto.
    + cbn [sum]. field. auto.
  - destruct (G _ _ _ _ _ C) as (-> & -> & O). rewrite (sum_ext _ _ _ O).
    unfold divide. intros NZ. destruct (Req_EM_T _ 0) as [Z|N]; [exfalso; apply NZ; rewrite Z; ring|]. field. auto.
Qed.

(** ** C56: cells of the caller's array outside the columns reported. True
    except for one: the volume-fraction cell of the first column after the
    last phase is divided as well. *)
Theorem C56_rest_untouched_partial : forall tab curLiq curSol mixLiq mixSol viscosity n b0,
  let (b, np) := report tab curLiq curSol mixLiq mixSol viscosity n b0 in
  forall k c, (c < 11 + nc tab + 3)%nat -> (np <= k)%nat -> (k <> np \/ c <> 11 + nc tab)%nat ->
  entry (nc tab) b k c = entry (nc tab) b0 k c.
Proof.
  intros tab curLiq curSol mixLiq mixSol viscosity n b0.
  destruct (report_eq tab curLiq curSol mixLiq mixSol viscosity n b0) as (out & -> & N1 & _ & _ & E & _).
  intros k c Hc Hk Or.
  assert (P : entry (nc tab) (putColumn tab 0 (sysColumn tab curLiq mixLiq n out) (buf out)) k c = entry (nc tab) b0 k c).
  { rewrite entry_put by exact Hc. destruct (Nat.eqb_spec k 0); [lia|]. now apply E. }
  destruct (Nat.eq_dec c (11 + nc tab)) as [->|Nc].
  - rewrite fractions_volume by lia. destruct (Req_EM_T _ 0); auto.
    destruct (Nat.leb_spec k (numberPhases out)); [lia|auto].
  - rewrite fractions_other by auto. exact P.
Qed.
(** the same as a property of its own (C110) *)
Theorem C110_rest_untouched : forall tab curLiq curSol mixLiq mixSol viscosity n b0,
  let (b, np) := report tab curLiq curSol mixLiq mixSol viscosity n b0 in
  forall k c, (c < 11 + nc tab + 3)%nat -> (np <= k)%nat -> (k <> np \/ c <> 11 + nc tab)%nat ->
  entry (nc tab) b k c = entry (nc tab) b0 k c.
Proof. exact C56_rest_untouched_partial. Qed.

Theorem C56_refuted : forall tab curLiq curSol mixLiq mixSol viscosity n b0,
  let (b, np) := report tab curLiq curSol mixLiq mixSol viscosity n b0 in
  entry (nc tab) b 0 3 <> 0 ->
  entry (nc tab) b np (11 + nc tab) = entry (nc tab) b0 np (11 + nc tab) / entry (nc tab) b 0 3.
Proof.
  intros tab curLiq curSol mixLiq mixSol viscosity n b0.
  destruct (report_eq tab curLiq curSol mixLiq mixSol viscosity n b0) as (out & -> & N1 & _ & _ & E & _).
  assert (H3 : (3 < columnLength tab)%nat) by (unfold columnLength; lia).
  assert (Hv : (11 + nc tab < columnLength tab)%nat) by (unfold columnLength; lia).
  set (sv := sysVolume tab curLiq mixLiq n out).
  assert (E3 : entry (nc tab) (fractions tab curLiq mixLiq n out
     (putColumn tab 0 (sysColumn tab curLiq mixLiq n out) (buf out))) 0 3 = 10 * sv).
  { rewrite fractions_other by (auto; lia). rewrite entry_put by auto. change (Nat.eqb 0 0) with true. cbv iota.
    unfold sysColumn, column. cbv zeta. cbn [Nat.ltb Nat.leb]. unfold scale. cbn [Nat.eqb orb].
    unfold sv, sysVolume. ring. }
  rewrite E3. intros NZ. rewrite fractions_volume by lia. fold sv.
  destruct (Req_EM_T sv 0) as [Z|_]; [exfalso; apply NZ; rewrite Z; ring|].
  destruct (Nat.leb_spec (numberPhases out) (numberPhases out)); [|lia].
  rewrite entry_put by auto. destruct (Nat.eqb_spec (numberPhases out) 0); [lia|].
  rewrite E by (auto; lia). reflexivity.
Qed.

(** A case meeting all hypotheses: a liquid and a pure solid (the node of
    SupplyProps), volume 2 per mole each. *)
Definition demoTab : Tab := mkTab 1 1 1 (fun i => Nat.eqb i 0) (fun _ => 1%nat) (fun _ _ => 1) (fun _ _ => 1)
  (fun _ _ => 1) (fun _ _ => 1) (fun _ => 1) (fun _ => 1) (fun _ => 0) (fun _ => 0) (fun _ => false).
Definition demoNode : Node :=
  mkNode (mkSt true 1 (fun nl j => if Nat.eqb nl 0 && Nat.eqb j 0 then 1 else 0)
            (fun i => if Nat.eqb i 0 then 1%nat else O)
            (fun i ns => if Nat.eqb i 0 && Nat.eqb ns 0 then 3 else 0)
            (fun o => if Nat.eqb o 0 then 4 else 0) (fun _ _ => 0) (fun _ => 0) 0 0 false) 1.
Theorem C55_case :
  balanced demoTab (matter demoNode) /\ counts demoTab (matter demoNode) /\ noSolution demoTab (matter demoNode) /\
  let (b, np) := report demoTab (fun _ _ => 2) (fun _ _ => 2) (fun _ _ => 0) (fun _ _ _ => 0) (fun _ => 0) demoNode (fun _ => 7) in
  np = 3%nat /\ entry 1 b 0 3 = 80 /\ entry 1 b 2 11 = 3.
Proof.
  split; [|split; [|split]].
  - intros o Ho. cbn in Ho. assert (o = 0)%nat by lia. subst. unfold amount, inSolids, inLiquids, inLiquid, solidAmount. cbn. ring.
  - split; [|split]; intros i; cbn; [now destruct (Nat.eqb i 0)|now destruct (Nat.eqb i 0); auto|].
    destruct (Nat.eqb_spec i 0); [lia|auto].
  - intros j Hj _. reflexivity.
  - unfold report. cbv zeta. destruct (Req_EM_T (liquidMass demoNode) 0) as [Z|_]; [cbn in Z; lra|].
    unfold reportSolids. cbn [loop npc demoTab nSol matter demoNode Nat.eqb reportSolid numberPhases].
    split; [reflexivity|]. unfold fractions. destruct (Req_EM_T _ 0) as [Z|_].
    { exfalso. unfold sysVolume, liqTotal in Z. cbn [liquidMass demoNode] in Z.
      destruct (Req_EM_T 1 0); [lra|]. unfold liqProps, addedToTotal in Z. cbn in Z. lra. }
    unfold entry. split.
    + cbn. unfold scale. cbn. unfold liqTotal. cbn [liquidMass demoNode]. destruct (Req_EM_T 1 0); [lra|].
      unfold liqProps, addedToTotal. cbn. lra.
    + cbn. unfold column. cbn. unfold solOx. cbn. lra.
Qed.
