(** Proofs about fractionation and assimilation. *)
From Coq Require Import Reals List Lia Lra Bool Arith.
From Verif Require Import MassModel MassSpec MassProofs MassOps MassDrop MassSolve.
Open Scope R_scope.

Section Frac.
Variable tab : Tab.
Hypothesis Lay : layout tab.
Variable cols : nat -> nat.

Definition fracSolidSum (q : Quantity) (s : St) : R :=
  sum (npc tab) (fun i => if isPhase tab i then
     sum (cols i) (fun ns => if Nat.eqb (na tab i) 1 then perSol q i * fracS s i ns
                   else sum (na tab i) (fun j => perSol q (i+1+j) * fracS s (i+1+j)%nat ns)) else 0).

(* the store is summed exactly like the solids: reuse those lemmas *)
Definition asSolids (s : St) : St := setNSol cols (setSolC (fracS s) s).
Lemma fracSolidSum_as q s : fracSolidSum q s = inSolids tab q (asSolids s).
Proof. reflexivity. Qed.

Lemma fracSolidSum_upd q s i c ns v : (i < npc tab)%nat -> isPhase tab i = true -> componentRow tab i c ->
  (ns < cols i)%nat ->
  fracSolidSum q (setFracS (upd2 (fracS s) c ns v) s) = fracSolidSum q s + perSol q c * (v - fracS s c ns).
Proof.
  intros Hi Pi Rc H. rewrite !fracSolidSum_as.
  transitivity (inSolids tab q (setSol c ns v (asSolids s))); [reflexivity|].
  rewrite (inSolids_setSol tab q Lay _ i) by auto. cbn [nSol asSolids setNSol setSolC].
  destruct (Nat.ltb_spec ns (cols i)); [|lia]. reflexivity.
Qed.
Lemma fracSolidSum_total q s i ns v : (i < npc tab)%nat -> isPhase tab i = true -> (1 < na tab i)%nat ->
  fracSolidSum q (setFracS (upd2 (fracS s) i ns v) s) = fracSolidSum q s.
Proof.
  intros Hi Pi N. rewrite !fracSolidSum_as.
  transitivity (inSolids tab q (setSol i ns v (asSolids s))); [reflexivity|].
  now apply inSolids_setTotal.
Qed.
Lemma fracSolidSum_same q s s' : fracS s' = fracS s -> fracSolidSum q s' = fracSolidSum q s.
Proof. unfold fracSolidSum. intros ->. reflexivity. Qed.
Lemma fracAmount_split q s : fracAmount tab q cols s = fracSolidSum q s + sum (nlc tab) (fun j => perLiq q j * fracL s j).
Proof. reflexivity. Qed.

(** moving matter of solid component row c, column ns, into the store, leaving v *)
Definition transfer (c ns : nat) (v : R) (s : St) : St :=
  let m := solC s c ns - v in
  let s := setFracS (upd2 (fracS s) c ns (fracS s c ns + m)) s in
  let s := if fo2On s then setOxy (oxy s - o2Sol tab c * m) s else s in
  let s := setFracMass (fracMass s + m * smw tab c) s in
  let s := addBulk tab (fun o => - (solToOx tab c o * m)) s in
  setSol c ns v s.
(** the same for liquid component j of liquid nl *)
Definition transferL (nl j : nat) (v : R) (s : St) : St :=
  let mw := sum (nc tab) (fun o => liqToOx tab j o * omw tab o) in
  let m := liqC s nl j - v in
  let s := setFracL (upd (fracL s) j (fracL s j + m)) s in
  let s := if fo2On s then setOxy (oxy s - o2Liq tab j * m) s else s in
  let s := setFracMass (fracMass s + m * mw) s in
  let s := addBulk tab (fun o => - (liqToOx tab j o * m)) s in
  setLiq nl j v s.

Lemma transfer_fields c ns v s :
  hasLiquid (transfer c ns v s) = hasLiquid s /\ nLiq (transfer c ns v s) = nLiq s /\
  liqC (transfer c ns v s) = liqC s /\ nSol (transfer c ns v s) = nSol s /\
  solC (transfer c ns v s) = upd2 (solC s) c ns v /\
  (forall o, (o < nc tab)%nat -> bulk (transfer c ns v s) o = bulk s o - solToOx tab c o * (solC s c ns - v)) /\
  fracS (transfer c ns v s) = upd2 (fracS s) c ns (fracS s c ns + (solC s c ns - v)) /\
  fracL (transfer c ns v s) = fracL s /\
  fracMass (transfer c ns v s) = fracMass s + (solC s c ns - v) * smw tab c /\
  oxy (transfer c ns v s) = (if fo2On s then oxy s - o2Sol tab c * (solC s c ns - v) else oxy s) /\
  fo2On (transfer c ns v s) = fo2On s.
Proof.
  unfold transfer. cbn zeta. cbn [fo2On setFracS]. destruct (fo2On s) eqn:F; csp; auto.
  all: intros o Ho; cbn [bulk setSol setSolC addBulk setBulk]; destruct (Nat.ltb_spec o (nc tab)); [|lia]; cbn; ring.
Qed.
Lemma transferL_fields nl j v s :
  hasLiquid (transferL nl j v s) = hasLiquid s /\ nLiq (transferL nl j v s) = nLiq s /\
  liqC (transferL nl j v s) = upd2 (liqC s) nl j v /\ nSol (transferL nl j v s) = nSol s /\
  solC (transferL nl j v s) = solC s /\
  (forall o, (o < nc tab)%nat -> bulk (transferL nl j v s) o = bulk s o - liqToOx tab j o * (liqC s nl j - v)) /\
  fracS (transferL nl j v s) = fracS s /\
  fracL (transferL nl j v s) = upd (fracL s) j (fracL s j + (liqC s nl j - v)) /\
  fracMass (transferL nl j v s) = fracMass s + (liqC s nl j - v) * sum (nc tab) (fun o => liqToOx tab j o * omw tab o) /\
  oxy (transferL nl j v s) = (if fo2On s then oxy s - o2Liq tab j * (liqC s nl j - v) else oxy s) /\
  fo2On (transferL nl j v s) = fo2On s.
Proof.
  unfold transferL. cbn zeta. cbn [fo2On setFracL]. destruct (fo2On s) eqn:F; csp; auto.
  all: intros o Ho; cbn [bulk setLiq setLiqC addBulk setBulk]; destruct (Nat.ltb_spec o (nc tab)); [|lia]; cbn; ring.
Qed.

(** A ledger is a number that no transfer and no change of a solution's total
    row changes. *)
Record Ledger (G : St -> R) : Prop := {
  led_sol : forall s i c ns v, (i < npc tab)%nat -> isPhase tab i = true -> componentRow tab i c ->
     (ns < nSol s i)%nat -> (ns < cols i)%nat -> G (transfer c ns v s) = G s;
  led_tot : forall s i ns v, (i < npc tab)%nat -> isPhase tab i = true -> (1 < na tab i)%nat ->
     G (setSol i ns v s) = G s;
  led_ftot : forall s i ns v, (i < npc tab)%nat -> isPhase tab i = true -> (1 < na tab i)%nat ->
     G (setFracS (upd2 (fracS s) i ns v) s) = G s;
  led_liq : forall s nl j v, (nl < nLiq s)%nat -> (j < nlc tab)%nat -> G (transferL nl j v s) = G s
}.

(* effects on the store *)
Lemma fracAmount_transfer q s i c ns v : (i < npc tab)%nat -> isPhase tab i = true -> componentRow tab i c ->
  (ns < cols i)%nat ->
  fracAmount tab q cols (transfer c ns v s) = fracAmount tab q cols s + perSol q c * (solC s c ns - v).
Proof.
  intros Hi Pi Rc H. rewrite !fracAmount_split.
  destruct (transfer_fields c ns v s) as (_ & _ & _ & _ & _ & _ & F & L & _).
  rewrite L.
  rewrite (fracSolidSum_same q (setFracS (upd2 (fracS s) c ns (fracS s c ns + (solC s c ns - v))) s)) by exact F.
  rewrite (fracSolidSum_upd q s i) by auto. ring.
Qed.
Lemma fracAmount_transferL q s nl j v : (j < nlc tab)%nat ->
  fracAmount tab q cols (transferL nl j v s) = fracAmount tab q cols s + perLiq q j * (liqC s nl j - v).
Proof.
  intros H. rewrite !fracAmount_split.
  destruct (transferL_fields nl j v s) as (_ & _ & _ & _ & _ & _ & F & L & _).
  rewrite L, (fracSolidSum_same q s) by exact F.
  rewrite (sum_at (nlc tab) j _ (fun j => perLiq q j * fracL s j)); auto.
  - unfold upd. rewrite Nat.eqb_refl. ring.
  - intros k _ Nk. unfold upd. destruct (Nat.eqb_spec k j); [congruence|reflexivity].
Qed.
Lemma fracAmount_total q s i ns v : (i < npc tab)%nat -> isPhase tab i = true -> (1 < na tab i)%nat ->
  fracAmount tab q cols (setFracS (upd2 (fracS s) i ns v) s) = fracAmount tab q cols s.
Proof. intros. rewrite !fracAmount_split, fracSolidSum_total by auto. reflexivity. Qed.

(* effects on the system *)
Lemma amount_transfer q s i c ns v : (i < npc tab)%nat -> isPhase tab i = true -> componentRow tab i c ->
  (ns < nSol s i)%nat ->
  amount tab q (transfer c ns v s) = amount tab q s - perSol q c * (solC s c ns - v).
Proof.
  intros Hi Pi Rc H. unfold amount.
  destruct (transfer_fields c ns v s) as (_ & NL & LC & NS & SC & _).
  rewrite (inLiquids_same tab q s) by auto.
  rewrite (inSolids_same tab q Lay (setSol c ns v s)) by auto.
  rewrite (inSolids_setSol tab q Lay s i) by auto. destruct (Nat.ltb_spec ns (nSol s i)); [|lia]. ring.
Qed.
Lemma amount_transferL q s nl j v : (nl < nLiq s)%nat -> (j < nlc tab)%nat ->
  amount tab q (transferL nl j v s) = amount tab q s - perLiq q j * (liqC s nl j - v).
Proof.
  intros H Hj. unfold amount.
  destruct (transferL_fields nl j v s) as (_ & NL & LC & NS & SC & _).
  rewrite (inSolids_same tab q Lay s) by auto.
  enough (E : inLiquids tab q (transferL nl j v s) = inLiquids tab q s - perLiq q j * (liqC s nl j - v)) by (rewrite E; ring).
  unfold inLiquids. rewrite NL.
  rewrite (sum_at (nLiq s) nl _ (inLiquid tab q s)); auto.
  - unfold inLiquid. rewrite LC.
    rewrite (sum_at (nlc tab) j (fun j0 => perLiq q j0 * upd2 (liqC s) nl j v nl j0) (fun j => perLiq q j * liqC s nl j)); auto.
    + rewrite upd2_eq. ring.
    + intros k _ Nk. rewrite upd2_col by auto. reflexivity.
  - intros n _ Nn. unfold inLiquid. rewrite LC. apply sum_ext. intros k Hk. rewrite upd2_row by auto. reflexivity.
Qed.

Lemma ledger_matter q : Ledger (fun s => amount tab q s + fracAmount tab q cols s).
Proof.
  constructor; intros.
  - rewrite (amount_transfer q s i), (fracAmount_transfer q s i) by auto. ring.
  - unfold amount at 1. rewrite inSolids_setTotal by auto. reflexivity.
  - rewrite fracAmount_total by auto. reflexivity.
  - rewrite amount_transferL, fracAmount_transferL by auto. ring.
Qed.
Lemma ledger_bulk o : (o < nc tab)%nat -> Ledger (fun s => bulk s o + fracAmount tab (oxide tab o) cols s).
Proof.
  intros Ho. constructor; intros.
  - rewrite (fracAmount_transfer _ s i) by auto.
    destruct (transfer_fields c ns v s) as (_ & _ & _ & _ & _ & B & _). rewrite B by auto. cbn [perSol oxide]. ring.
  - reflexivity.
  - rewrite fracAmount_total by auto. reflexivity.
  - rewrite fracAmount_transferL by auto.
    destruct (transferL_fields nl j v s) as (_ & _ & _ & _ & _ & B & _). rewrite B by auto. cbn [perLiq oxide]. ring.
Qed.
(** grams: molecular weights of solids, and of liquid components through their oxides *)
Definition grams : Quantity :=
  mkQ (smw tab) (fun j => sum (nc tab) (fun o => liqToOx tab j o * omw tab o)).
Lemma ledger_mass : Ledger (fun s => fracMass s - fracAmount tab grams cols s).
Proof.
  constructor; intros.
  - rewrite (fracAmount_transfer _ s i) by auto.
    destruct (transfer_fields c ns v s) as (_ & _ & _ & _ & _ & _ & _ & _ & B & _). rewrite B. cbn [perSol grams]. ring.
  - reflexivity.
  - rewrite fracAmount_total by auto. reflexivity.
  - rewrite fracAmount_transferL by auto.
    destruct (transferL_fields nl j v s) as (_ & _ & _ & _ & _ & _ & _ & _ & B & _). rewrite B. cbn [perLiq grams]. ring.
Qed.
(** moles of O2 *)
Definition moleO2 : Quantity := mkQ (o2Sol tab) (o2Liq tab).
Lemma ledger_oxygen : Ledger (fun s => oxy s + (if fo2On s then fracAmount tab moleO2 cols s else 0)).
Proof.
  constructor; intros.
  - destruct (transfer_fields c ns v s) as (_ & _ & _ & _ & _ & _ & _ & _ & _ & B & C). rewrite B, C.
    destruct (fo2On s); [|ring]. rewrite (fracAmount_transfer _ s i) by auto. cbn [perSol moleO2]. ring.
  - reflexivity.
  - cbn [oxy fo2On setFracS]. destruct (fo2On s); [|ring]. rewrite fracAmount_total by auto. reflexivity.
  - destruct (transferL_fields nl j v s) as (_ & _ & _ & _ & _ & _ & _ & _ & _ & B & C). rewrite B, C.
    destruct (fo2On s); [|ring]. rewrite fracAmount_transferL by auto. cbn [perLiq moleO2]. ring.
Qed.

(** ** Loops of transfers *)
Definition frStep (i ns j : nat) (s : St) : St :=
  transfer (i+1+j) ns (MASSIN * (solC s (i+1+j)%nat ns / solC s i ns)) s.

Lemma fracColumn_pure i ns s : (ns < nSol s i)%nat -> na tab i = 1%nat -> ~ solC s i ns < MASSIN ->
  fracColumn tab i ns s = transfer i ns MASSIN s.
Proof.
  intros H N L. unfold fracColumn. destruct (Nat.ltb_spec ns (nSol s i)); [|lia]. cbn [negb].
  destruct (Rlt_dec (solC s i ns) MASSIN); [contradiction|]. rewrite N. reflexivity.
Qed.
Lemma fracColumn_solution i ns s : (ns < nSol s i)%nat -> (1 < na tab i)%nat -> ~ solC s i ns < MASSIN ->
  fracColumn tab i ns s =
  setSol i ns MASSIN (loop (na tab i) (frStep i ns)
    (setFracS (upd2 (fracS s) i ns (fracS s i ns + (solC s i ns - MASSIN))) s)).
Proof.
  intros H N L. unfold fracColumn. destruct (Nat.ltb_spec ns (nSol s i)); [|lia]. cbn [negb].
  destruct (Rlt_dec (solC s i ns) MASSIN); [contradiction|].
  destruct (Nat.eqb_spec (na tab i) 1); [lia|]. reflexivity.
Qed.

(** the contents of a fractionated column *)
Definition leaves (s s' : St) (i ns : nat) : Prop :=
  solC s' i ns = MASSIN /\
  forall c, componentRow tab i c -> c <> i -> solC s' c ns = MASSIN * (solC s c ns / solC s i ns).

Lemma frSteps G i ns s : Ledger G -> (i < npc tab)%nat -> isPhase tab i = true -> (1 < na tab i)%nat ->
  (ns < nSol s i)%nat -> (ns < cols i)%nat ->
  forall m, (m <= na tab i)%nat ->
  let t := loop m (frStep i ns) s in
  G t = G s /\ nSol t = nSol s /\ nLiq t = nLiq s /\ hasLiquid t = hasLiquid s /\ liqC t = liqC s /\
  (forall c x, x <> ns \/ (c <= i)%nat \/ (i + m < c)%nat -> solC t c x = solC s c x) /\
  (forall c, (i < c <= i + m)%nat -> solC t c ns = MASSIN * (solC s c ns / solC s i ns)).
Proof.
  intros LG Hi Pi N Hns Hc. induction m; intros Hm; cbn zeta in *.
  - cbn [loop]. csp; auto. intros; lia.
  - destruct (IHm ltac:(lia)) as (A & B & C & D & E & F & K). rewrite loop_S. set (t := loop m (frStep i ns) s) in *.
    unfold frStep. set (v := MASSIN * (solC t (i+1+m)%nat ns / solC t i ns)).
    destruct (transfer_fields (i+1+m) ns v t) as (T1 & T2 & T3 & T4 & T5 & _).
    rewrite T1, T2, T3, T4, T5.
    split; [|csp; auto].
    + assert (Rw : componentRow tab i (i+1+m)) by (apply row_in; auto; lia).
      rewrite (led_sol G LG t i) by (auto; rewrite B; auto). exact A.
    + intros c x Hx. destruct (Nat.eq_dec c (i+1+m)) as [->|Nc].
      * rewrite upd2_col by lia. apply F. lia.
      * rewrite upd2_row by auto. apply F. lia.
    + intros c Hc'. destruct (Nat.eq_dec c (i+1+m)) as [->|Nc].
      * rewrite upd2_eq. unfold v. rewrite !F by lia. reflexivity.
      * rewrite upd2_row by auto. apply K. lia.
Qed.

Lemma fracColumn_spec G i ns s : Ledger G -> (i < npc tab)%nat -> isPhase tab i = true ->
  (nSol s i <= cols i)%nat -> (ns < nSol s i)%nat ->
  let t := fracColumn tab i ns s in
  G t = G s /\ nSol t = nSol s /\ nLiq t = nLiq s /\ hasLiquid t = hasLiquid s /\ liqC t = liqC s /\
  (forall c x, x <> ns \/ ~ usedRow tab i c -> solC t c x = solC s c x) /\
  (solC s i ns < MASSIN -> t = s) /\ (MASSIN <= solC s i ns -> leaves s t i ns).
Proof.
  intros LG Hi Pi Hc Hns. cbn zeta.
  destruct (Rlt_dec (solC s i ns) MASSIN) as [L|L].
  { assert (E : fracColumn tab i ns s = s).
    { unfold fracColumn. destruct (Nat.ltb_spec ns (nSol s i)); [|lia]. cbn [negb].
      destruct (Rlt_dec (solC s i ns) MASSIN); [reflexivity|contradiction]. }
    rewrite E. csp; auto. intros; lra. }
  destruct (na_cases tab Lay i Hi Pi) as [N|N].
  - rewrite fracColumn_pure by auto.
    destruct (transfer_fields i ns MASSIN s) as (T1 & T2 & T3 & T4 & T5 & _).
    split; [apply (led_sol G LG s i); auto; [left; auto|lia]|]. rewrite T1, T2, T3, T4.
    csp; auto.
    + intros c x Hx. rewrite T5. destruct (Nat.eq_dec c i) as [->|Ne].
      * apply upd2_col. destruct Hx as [|Hx]; auto. exfalso. apply Hx. left; auto.
      * now apply upd2_row.
    + intros; lra.
    + intros _. split; [rewrite T5; apply upd2_eq|].
      intros c [[_ ->]|[N' _]] Ne; [congruence|lia].
  - rewrite fracColumn_solution by auto.
    set (s1 := setFracS _ s).
    destruct (frSteps G i ns s1 LG Hi Pi N Hns ltac:(lia) (na tab i) (le_n _)) as (A & B & C & D & E & F & K).
    set (t := loop (na tab i) (frStep i ns) s1) in *.
    split; [rewrite (led_tot G LG) by auto; rewrite A; unfold s1; now rewrite (led_ftot G LG) by auto|].
    split; [exact B|]. split; [exact C|]. split; [exact D|]. split; [exact E|]. split; [|split].
    + intros c x Hx. cbn. destruct (Nat.eq_dec c i) as [->|Ne].
      * rewrite upd2_col. { apply F. right. lia. } destruct Hx as [|Hx]; auto. exfalso. apply Hx. left; auto.
      * rewrite upd2_row by auto. apply F. destruct Hx as [|Hx]; auto. right.
        destruct (Nat.le_gt_cases c i); auto. right. destruct (Nat.le_gt_cases c (i + na tab i)); [|lia].
        exfalso. apply Hx. right. right. lia.
    + intros; contradiction.
    + intros _. split; [cbn; apply upd2_eq|].
      intros c Rc Ne. cbn. rewrite upd2_row by auto. rewrite K; [reflexivity|].
      destruct Rc as [[N' _]|[_ Rc]]; lia.
Qed.

Lemma fracColumns_spec G i s : Ledger G -> (i < npc tab)%nat -> isPhase tab i = true ->
  (nSol s i <= cols i)%nat -> forall n, (n <= nSol s i)%nat ->
  let t := loop n (fracColumn tab i) s in
  G t = G s /\ nSol t = nSol s /\ nLiq t = nLiq s /\ hasLiquid t = hasLiquid s /\ liqC t = liqC s /\
  (forall c x, (n <= x)%nat \/ ~ usedRow tab i c -> solC t c x = solC s c x) /\
  (forall x, (x < n)%nat -> solC s i x < MASSIN -> forall c, solC t c x = solC s c x) /\
  (forall x, (x < n)%nat -> MASSIN <= solC s i x -> leaves s t i x).
Proof.
  intros LG Hi Pi Hc. induction n; intros Hn; cbn zeta in *.
  - cbn [loop]. csp; auto; intros; lia.
  - destruct (IHn ltac:(lia)) as (A & B & C & D & E & F & K & L). rewrite loop_S. set (t := loop n _ s) in *.
    assert (Sn : forall c, solC t c n = solC s c n) by (intros; apply F; left; lia).
    destruct (fracColumn_spec G i n t LG Hi Pi ltac:(rewrite B; lia) ltac:(rewrite B; lia))
      as (A' & B' & C' & D' & E' & F' & K' & L'). set (t' := fracColumn tab i n t) in *.
    split; [congruence|]. split; [congruence|]. split; [congruence|]. split; [congruence|]. split; [congruence|].
    split; [|split].
    + intros c x Hx. rewrite F' by (destruct Hx; auto; left; lia). apply F. destruct Hx; auto. left; lia.
    + intros x Hx Hs c. destruct (Nat.eq_dec x n) as [->|Ne].
      * rewrite K' by (rewrite Sn; auto). apply Sn.
      * rewrite F' by auto. apply K; auto. lia.
    + intros x Hx Hs. destruct (Nat.eq_dec x n) as [->|Ne].
      * destruct (L' ltac:(rewrite Sn; auto)) as [L1 L2]. split; auto.
        intros c Rc Nc. rewrite L2 by auto. now rewrite !Sn.
      * destruct (L x ltac:(lia) Hs) as [L1 L2]. split; [rewrite F' by auto; auto|].
        intros c Rc Nc. rewrite F' by auto. auto.
Qed.

(** all solids *)
Theorem fracSolids_spec G part s : Ledger G -> counts tab s -> (forall i, (nSol s i <= cols i)%nat) ->
  let t := fracSolids tab part s in
  G t = G s /\ nSol t = nSol s /\ nLiq t = nLiq s /\ hasLiquid t = hasLiquid s /\ liqC t = liqC s /\
  (forall i ns, (i < npc tab)%nat -> isPhase tab i = true -> (ns < nSol s i)%nat ->
     (part i = true /\ MASSIN <= solC s i ns -> leaves s t i ns) /\
     (part i = false \/ solC s i ns < MASSIN -> forall c, usedRow tab i c -> solC t c ns = solC s c ns)).
Proof.
  intros LG Cn Hc. unfold fracSolids. cbn zeta.
  match goal with |- context [loop (npc tab) ?f s] => set (F := f) end.
  assert (P : forall n, (n <= npc tab)%nat ->
    let t := loop n F s in
    G t = G s /\ nSol t = nSol s /\ nLiq t = nLiq s /\ hasLiquid t = hasLiquid s /\ liqC t = liqC s /\
    (forall i c ns, (n <= i)%nat -> (i < npc tab)%nat -> isPhase tab i = true -> usedRow tab i c -> solC t c ns = solC s c ns) /\
    (forall i ns, (i < n)%nat -> isPhase tab i = true -> (ns < nSol s i)%nat ->
     (part i = true /\ MASSIN <= solC s i ns -> leaves s t i ns) /\
     (part i = false \/ solC s i ns < MASSIN -> forall c, usedRow tab i c -> solC t c ns = solC s c ns))).
  { induction n; intros Hn; cbn zeta in *.
    - cbn [loop]. csp; auto; intros; lia.
    - destruct (IHn ltac:(lia)) as (A & B & C & D & E & U & V). rewrite loop_S. set (t := loop n F s) in *.
      assert (Nop : F n t = t -> isPhase tab n = false \/ part n = false ->
        G (F n t) = G s /\ nSol (F n t) = nSol s /\ nLiq (F n t) = nLiq s /\ hasLiquid (F n t) = hasLiquid s /\ liqC (F n t) = liqC s /\
        (forall i c ns, (S n <= i)%nat -> (i < npc tab)%nat -> isPhase tab i = true -> usedRow tab i c -> solC (F n t) c ns = solC s c ns) /\
        (forall i ns, (i < S n)%nat -> isPhase tab i = true -> (ns < nSol s i)%nat ->
         (part i = true /\ MASSIN <= solC s i ns -> leaves s (F n t) i ns) /\
         (part i = false \/ solC s i ns < MASSIN -> forall c, usedRow tab i c -> solC (F n t) c ns = solC s c ns))).
      { intros En Why. rewrite En. do 5 (split; [assumption|]). split.
        - intros i c ns Hi. apply U. lia.
        - intros i ns Hi Pi Hns. destruct (Nat.eq_dec i n) as [->|Ne]; [|apply V; auto; lia]. split.
          + intros [P1 P2]. destruct Why; congruence.
          + intros _ c Uc. apply (U n); auto. }
      destruct (part n) eqn:Pn.
      2:{ apply Nop; auto. unfold F. now rewrite Pn. }
      destruct (isPhase tab n) eqn:Ph.
      2:{ apply Nop; auto. unfold F. rewrite Pn, B. destruct Cn as (C1 & _). rewrite (C1 n Ph). reflexivity. }
      clear Nop. unfold F. rewrite Pn.
      assert (Hn' : (n < npc tab)%nat) by lia.
      assert (SU : forall c x, usedRow tab n c -> solC t c x = solC s c x) by (intros; apply (U n); auto).
      destruct (fracColumns_spec G n t LG Hn' Ph ltac:(rewrite B; auto) (nSol t n) (le_n _))
        as (A' & B' & C' & D' & E' & F' & K' & L'). set (t' := loop (nSol t n) (fracColumn tab n) t) in *.
      split; [congruence|]. split; [congruence|]. split; [congruence|]. split; [congruence|]. split; [congruence|].
      split.
      + intros i c ns Hi Hi' Pi Uc. rewrite F'.
        * apply (U i); auto. lia.
        * right. intros Un. assert (i = n) by (apply (used_disjoint tab Lay i n c); auto). lia.
      + intros i ns Hi Pi Hns. assert (Hi' : (i < npc tab)%nat) by lia.
        destruct (Nat.eq_dec i n) as [->|Ne].
        * split.
          -- intros [_ Hm]. destruct (L' ns ltac:(rewrite B; auto)) as [L1 L2].
             { rewrite SU by (left; auto). auto. }
             split; auto. intros c Rc Nc. rewrite L2 by auto. rewrite !SU by (unfold usedRow; auto). reflexivity.
          -- intros [X|Hm] c Uc; [congruence|]. rewrite K'.
             ++ apply SU; auto.
             ++ rewrite B; auto.
             ++ rewrite SU by (left; auto). auto.
        * assert (Keep : forall c x, usedRow tab i c -> solC t' c x = solC t c x).
          { intros c x Uc. apply F'. right. intros Un. apply Ne. apply (used_disjoint tab Lay i n c); auto. }
          destruct (V i ns ltac:(lia) Pi Hns) as [V1 V2]. split.
          -- intros Hp. destruct (V1 Hp) as [L1 L2]. split; [rewrite Keep by (left; auto); auto|].
             intros c Rc Nc. rewrite Keep by (right; auto). auto.
          -- intros Hp c Uc. rewrite Keep by auto. auto. }
  destruct (P (npc tab) (le_n _)) as (A & B & C & D & E & _ & V).
  do 5 (split; [assumption|]). intros; apply V; auto.
Qed.

(** ** Liquids *)
Lemma fracLiqComponent_eq ref nl j s : fracLiqComponent tab ref nl j s =
  if Req_EM_T (liqC s nl j) 0 then s else if Req_EM_T ref 0 then s
  else transferL nl j (MASSIN * (liqC s nl j / ref)) s.
Proof. reflexivity. Qed.

Lemma fracLiquid_spec G nl s : Ledger G -> (nl < nLiq s)%nat ->
  let t := fracLiquid tab nl s in
  let ref := sum (nlc tab) (liqC s nl) in
  G t = G s /\ nSol t = nSol s /\ nLiq t = nLiq s /\ solC t = solC s /\
  (forall n j, n <> nl -> liqC t n j = liqC s n j) /\
  (ref < MASSIN -> t = s) /\
  (MASSIN <= ref -> forall j, (j < nlc tab)%nat -> liqC t nl j = MASSIN * (liqC s nl j / ref)).
Proof.
  intros LG Hn. cbn zeta. unfold fracLiquid. set (ref := sum (nlc tab) (liqC s nl)).
  destruct (Rlt_dec ref MASSIN) as [L|L].
  { csp; auto. intros; lra. }
  assert (R0 : ref <> 0) by (unfold MASSIN in L; lra).
  assert (P : forall m, (m <= nlc tab)%nat ->
    let t := loop m (fracLiqComponent tab ref nl) s in
    G t = G s /\ nSol t = nSol s /\ nLiq t = nLiq s /\ solC t = solC s /\
    (forall n j, n <> nl \/ (m <= j)%nat -> liqC t n j = liqC s n j) /\
    (forall j, (j < m)%nat -> liqC t nl j = MASSIN * (liqC s nl j / ref))).
  { induction m; intros Hm; cbn zeta in *.
    - cbn [loop]. csp; auto. intros; lia.
    - destruct (IHm ltac:(lia)) as (A & B & C & D & E & F). rewrite loop_S. set (t := loop m _ s) in *.
      rewrite fracLiqComponent_eq.
      assert (Em : liqC t nl m = liqC s nl m) by (apply E; auto).
      destruct (Req_EM_T (liqC t nl m) 0) as [Z|Z].
      + csp; auto.
        * intros n j Hj. apply E. destruct Hj; auto. right; lia.
        * intros j Hj. destruct (Nat.eq_dec j m) as [->|Ne]; [|apply F; lia].
          rewrite <- Em, Z. field. auto.
      + destruct (Req_EM_T ref 0) as [|_]; [contradiction|].
        destruct (transferL_fields nl m (MASSIN * (liqC t nl m / ref)) t) as (T1 & T2 & T3 & T4 & T5 & _).
        rewrite T2, T3, T4, T5.
        rewrite (led_liq G LG) by (auto; rewrite C; auto).
        csp; auto.
        * intros n j Hj. destruct (Nat.eq_dec n nl) as [->|Nn].
          -- rewrite upd2_col by lia. apply E. right; lia.
          -- rewrite upd2_row by auto. apply E. auto.
        * intros j Hj. destruct (Nat.eq_dec j m) as [->|Ne].
          -- rewrite upd2_eq, Em. reflexivity.
          -- rewrite upd2_col by auto. apply F. lia. }
  destruct (P (nlc tab) (le_n _)) as (A & B & C & D & E & F). csp; auto. intros; contradiction.
Qed.

Theorem fracLiquids_spec G s : Ledger G ->
  let t := fracLiquids tab s in
  G t = G s /\ nSol t = nSol s /\ nLiq t = nLiq s /\ solC t = solC s /\
  (forall nl, (nl < nLiq s)%nat ->
    let ref := sum (nlc tab) (liqC s nl) in
    (ref < MASSIN -> forall j, liqC t nl j = liqC s nl j) /\
    (MASSIN <= ref -> forall j, (j < nlc tab)%nat -> liqC t nl j = MASSIN * (liqC s nl j / ref))).
Proof.
  intros LG. unfold fracLiquids. cbn zeta.
  assert (P : forall n, (n <= nLiq s)%nat ->
    let t := loop n (fracLiquid tab) s in
    G t = G s /\ nSol t = nSol s /\ nLiq t = nLiq s /\ solC t = solC s /\
    (forall nl j, (n <= nl)%nat -> liqC t nl j = liqC s nl j) /\
    (forall nl, (nl < n)%nat ->
      (sum (nlc tab) (liqC s nl) < MASSIN -> forall j, liqC t nl j = liqC s nl j) /\
      (MASSIN <= sum (nlc tab) (liqC s nl) -> forall j, (j < nlc tab)%nat -> liqC t nl j = MASSIN * (liqC s nl j / sum (nlc tab) (liqC s nl))))).
  { induction n; intros Hn; cbn zeta in *.
    - cbn [loop]. csp; auto; intros; lia.
    - destruct (IHn ltac:(lia)) as (A & B & C & D & E & F). rewrite loop_S. set (t := loop n _ s) in *.
      destruct (fracLiquid_spec G n t LG ltac:(rewrite C; lia)) as (A' & B' & C' & D' & E' & F' & K'). cbn zeta in *.
      assert (Sm : sum (nlc tab) (liqC t n) = sum (nlc tab) (liqC s n)) by (apply sum_ext; intros; apply E; lia).
      rewrite Sm in *.
      split; [congruence|]. split; [congruence|]. split; [congruence|]. split; [congruence|]. split.
      + intros nl j Hl. rewrite E' by lia. apply E. lia.
      + intros nl Hl. destruct (Nat.eq_dec nl n) as [->|Ne].
        * split.
          -- intros H j. rewrite F' by auto. apply E. lia.
          -- intros H j Hj. rewrite K' by auto. rewrite E by lia. reflexivity.
        * destruct (F nl ltac:(lia)) as [F1 F2]. split.
          -- intros H j. rewrite E' by auto. auto.
          -- intros H j Hj. rewrite E' by auto. auto. }
  destruct (P (nLiq s) (le_n _)) as (A & B & C & D & _ & F).
  do 4 (split; [assumption|]). intros; apply F; auto.
Qed.

(** ** Traces *)
Theorem clearTraces_none s : (forall o, (o < nc tab)%nat -> bulk s o = 0 \/ MASSOUT <= bulk s o \/ isFe2O3 tab o = true) ->
  clearTraces tab s = s.
Proof.
  intros H. unfold clearTraces. assert (P : forall n, (n <= nc tab)%nat -> loop n (clearOxide tab) s = s).
  { induction n; intros Hn; [reflexivity|]. rewrite loop_S, IHn by lia. unfold clearOxide.
    destruct (Req_EM_T (bulk s n) 0); [reflexivity|]. destruct (Rlt_dec (bulk s n) MASSOUT); [|reflexivity].
    destruct (H n ltac:(lia)) as [|[|E]]; try contradiction; [lra|]. now rewrite E. }
  apply P. lia.
Qed.

End Frac.

(** ** Assimilation *)
Section Assimilation.
Variable tab : Tab.
Hypothesis Lay : layout tab.
Variable a : Assim.
Variable f : R.

Definition assimRows (q : Quantity) (i ns : nat) : R :=
  if Nat.eqb (na tab i) 1 then perSol q i * assC a i ns
  else sum (na tab i) (fun j => perSol q (i+1+j) * assC a (i+1+j)%nat ns).

Lemma addBulk_at g s o : (o < nc tab)%nat -> bulk (addBulk tab g s) o = bulk s o + g o.
Proof. intros H. cbn [bulk addBulk setBulk]. destruct (Nat.ltb_spec o (nc tab)); [reflexivity|lia]. Qed.

(* absent phases hold nothing in their first column *)
Definition emptyAbsent (s : St) : Prop :=
  forall i c, (i < npc tab)%nat -> isPhase tab i = true -> nSol s i = 0%nat -> componentRow tab i c -> solC s c 0%nat = 0.

(* amount and bulk grow by x (of q) and y (of oxide o) *)
Section One.
Variables (q : Quantity) (o : nat).
Hypothesis Agr : agrees tab q.
Hypothesis Ho : (o < nc tab)%nat.

(** a component row is assimilated into the first liquid *)
Lemma assimComponent_liq c x s : (c < npc tab)%nat -> hasLiquid s = true -> (0 < nLiq s)%nat ->
  let t := assimComponent tab f c x s in
  amount tab q t = amount tab q s + f * (perSol q c * x) /\ bulk t o = bulk s o + f * (solToOx tab c o * x) /\
  nLiq t = nLiq s /\ hasLiquid t = hasLiquid s /\ nSol t = nSol s /\ solC t = solC s /\ fo2On t = fo2On s.
Proof.
  intros Hc HL NL. unfold assimComponent. cbn zeta.
  set (s1 := addBulk tab _ s). change (hasLiquid s1) with (hasLiquid s). rewrite HL. csp; auto.
  - unfold amount. change (inSolids tab q (addLiq tab 0 (fun j => f * x * solToLiq tab c j) s1)) with (inSolids tab q s).
    rewrite inLiquids_addLiq by auto. change (inLiquids tab q s1) with (inLiquids tab q s).
    rewrite (sum_ext _ _ (fun j => perLiq q j * (solToLiq tab c j * (f * x)))) by (intros; ring).
    rewrite (agrees_scal tab q _ _ Agr) by auto. ring.
  - change (bulk (addLiq tab 0 (fun j => f * x * solToLiq tab c j) s1) o) with (bulk s1 o).
    unfold s1. rewrite addBulk_at by auto. ring.
Qed.
Lemma assimComponent_noliq c x s : hasLiquid s = false ->
  assimComponent tab f c x s = addBulk tab (fun o => f * x * solToOx tab c o) s.
Proof. intros HL. unfold assimComponent. cbn [hasLiquid addBulk setBulk]. now rewrite HL. Qed.

Definition stepOk (s t : St) : Prop :=
  nLiq t = nLiq s /\ hasLiquid t = hasLiquid s /\ (hasLiquid s = false -> emptyAbsent s -> emptyAbsent t).

Lemma nsol_reset s i : (i < npc tab)%nat -> isPhase tab i = true -> emptyAbsent s ->
  let t := if Nat.eqb (nSol s i) 0 then setNSol (upd (nSol s) i 1%nat) s else s in
  inSolids tab q t = inSolids tab q s /\ solC t = solC s /\ (0 < nSol t i)%nat /\ emptyAbsent t /\
  nLiq t = nLiq s /\ hasLiquid t = hasLiquid s /\ bulk t = bulk s /\ liqC t = liqC s /\ fo2On t = fo2On s.
Proof.
  intros Hi Pi Em. cbn zeta. destruct (Nat.eqb_spec (nSol s i) 0) as [E|E].
  - csp; auto.
    + rewrite (setNSol_new tab Lay q s i) by auto. rewrite E. cbn [sum].
      unfold solidAmount. destruct (na_cases tab Lay i Hi Pi) as [N|N].
      * rewrite N. cbn [Nat.eqb]. rewrite (Em i i Hi Pi E) by (left; auto). ring.
      * destruct (Nat.eqb_spec (na tab i) 1); [lia|]. rewrite sum_0; [ring|].
        intros j Hj. rewrite (Em i _ Hi Pi E) by (apply row_in; auto). ring.
    + cbn. unfold upd. rewrite Nat.eqb_refl. lia.
    + intros i' c Hi' Pi' N' Rc. cbn in N'. unfold upd in N'. destruct (Nat.eqb_spec i' i); [discriminate|].
      apply (Em i' c); auto.
  - csp; auto. lia.
Qed.

(** one component row assimilated as solid *)
Lemma assimRow_noliq i c x s : (i < npc tab)%nat -> isPhase tab i = true -> componentRow tab i c ->
  hasLiquid s = false -> emptyAbsent s ->
  let s1 := assimComponent tab f c x s in
  let s2 := if Nat.eqb (nSol s1 i) 0 then setNSol (upd (nSol s1) i 1%nat) s1 else s1 in
  let t := setSol c 0 (solC s2 c 0 + f * x) s2 in
  amount tab q t = amount tab q s + f * (perSol q c * x) /\ bulk t o = bulk s o + f * (solToOx tab c o * x) /\ stepOk s t.
Proof.
  intros Hi Pi Rc HL Em. rewrite assimComponent_noliq by auto. cbn zeta.
  set (s1 := addBulk tab _ s).
  assert (Em1 : emptyAbsent s1) by exact Em.
  destruct (nsol_reset s1 i Hi Pi Em1) as (A & B & C & D & E & F & K & L & _). cbn zeta in *.
  set (s2 := if Nat.eqb (nSol s1 i) 0 then setNSol (upd (nSol s1) i 1%nat) s1 else s1) in *.
  split; [|split].
  - unfold amount. rewrite (inSolids_setSol tab q Lay s2 i) by auto.
    destruct (Nat.ltb_spec 0 (nSol s2 i)); [|lia]. rewrite A.
    change (inLiquids tab q (setSol c 0 (solC s2 c 0 + f * x) s2)) with (inLiquids tab q s2).
    rewrite (inLiquids_same tab q s s2) by (rewrite ?E, ?L; reflexivity).
    change (inSolids tab q s1) with (inSolids tab q s). ring.
  - change (bulk (setSol c 0 (solC s2 c 0 + f * x) s2) o) with (bulk s2 o). rewrite K. unfold s1.
    rewrite addBulk_at by auto. ring.
  - unfold stepOk. split; [cbn; rewrite E; reflexivity|]. split; [cbn; rewrite F; reflexivity|].
    intros _ _ i' c' Hi' Pi' N' Rc'. cbn in N' |- *. destruct (Nat.eq_dec c' c) as [->|Ne].
    + assert (i = i') by (apply (rows_disjoint tab Lay i i' c); auto). subst. lia.
    + rewrite upd2_row by auto. apply (D i' c'); auto.
Qed.

Lemma setOxy_stepOk s t x : stepOk s t -> stepOk s (if fo2On t then setOxy x t else t).
Proof. intros (A & B & C). destruct (fo2On t); unfold stepOk; csp; auto. Qed.
Lemma setOxy_amount t x : amount tab q (if fo2On t then setOxy x t else t) = amount tab q t.
Proof. destruct (fo2On t); reflexivity. Qed.
Lemma setOxy_bulk t x : bulk (if fo2On t then setOxy x t else t) = bulk t.
Proof. destruct (fo2On t); reflexivity. Qed.
Lemma stepOk_refl s : stepOk s s.
Proof. unfold stepOk; csp; auto. Qed.
Lemma stepOk_trans r s t : stepOk r s -> stepOk s t -> stepOk r t.
Proof.
  intros (A & B & C) (A' & B' & C'). unfold stepOk. split; [congruence|]. split; [congruence|].
  intros H E. apply C'; [congruence|auto].
Qed.

Lemma assimRow i c x s : (i < npc tab)%nat -> isPhase tab i = true -> componentRow tab i c ->
  (hasLiquid s = true -> (0 < nLiq s)%nat) -> (hasLiquid s = false -> emptyAbsent s) ->
  let s1 := assimComponent tab f c x s in
  let s2 := if hasLiquid s1 then s1
            else let s' := if Nat.eqb (nSol s1 i) 0 then setNSol (upd (nSol s1) i 1%nat) s1 else s1 in
                 setSol c 0 (solC s' c 0 + f * x) s' in
  amount tab q s2 = amount tab q s + f * (perSol q c * x) /\ bulk s2 o = bulk s o + f * (solToOx tab c o * x) /\ stepOk s s2.
Proof.
  intros Hi Pi Rc H1 H2. cbn zeta. destruct (hasLiquid s) eqn:HL.
  - destruct (assimComponent_liq c x s) as (A & B & C & D & E & F & K); auto.
    { eapply row_lt; eauto. }
    rewrite D, HL. split; [exact A|]. split; [exact B|]. unfold stepOk. split; [exact C|]. split; [congruence|]. congruence.
  - assert (HF : hasLiquid (assimComponent tab f c x s) = false) by (rewrite assimComponent_noliq by auto; exact HL).
    rewrite HF. apply (assimRow_noliq i c x s); auto.
Qed.

Lemma assimColumn_spec i ns s : (i < npc tab)%nat -> 
  (hasLiquid s = true -> (0 < nLiq s)%nat) -> (hasLiquid s = false -> emptyAbsent s) ->
  let t := assimColumn tab a f i ns s in
  amount tab q t = amount tab q s + f * (if isPhase tab i then assimRows q i ns else 0) /\
  bulk t o = bulk s o + f * (if isPhase tab i then assimRows (oxide tab o) i ns else 0) /\ stepOk s t.
Proof.
  intros Hi H1 H2. unfold assimColumn. cbn zeta. destruct (isPhase tab i) eqn:Pi.
  2:{ split; [ring|]. split; [ring|apply stepOk_refl]. }
  unfold assimRows. destruct (na_cases tab Lay i Hi Pi) as [N|N].
  - rewrite N. cbn [Nat.eqb]. rewrite setOxy_amount, setOxy_bulk.
    destruct (assimRow i i (assC a i ns) s Hi Pi ltac:(left; auto) H1 H2) as (A & B & C).
    split; [exact A|]. split; [exact B|]. apply setOxy_stepOk. exact C.
  - destruct (Nat.eqb_spec (na tab i) 1); [lia|]. destruct (Nat.ltb_spec 1 (na tab i)); [|lia].
    match goal with |- context [loop (na tab i) ?g s] => set (F := g) end.
    assert (P : forall m, (m <= na tab i)%nat ->
      amount tab q (loop m F s) = amount tab q s + f * sum m (fun j => perSol q (i+1+j) * assC a (i+1+j)%nat ns) /\
      bulk (loop m F s) o = bulk s o + f * sum m (fun j => solToOx tab (i+1+j) o * assC a (i+1+j)%nat ns) /\
      stepOk s (loop m F s)).
    { induction m; intros Hm.
      - cbn. split; [ring|]. split; [ring|apply stepOk_refl].
      - destruct (IHm ltac:(lia)) as (A & B & C). rewrite loop_S. set (t := loop m F s) in *.
        destruct C as (C1 & C2 & C3).
        destruct (assimRow i (i+1+m) (assC a (i+1+m)%nat ns) t Hi Pi ltac:(apply row_in; auto; lia)) as (A' & B' & C').
        { rewrite C1, C2. auto. }
        { rewrite C2. auto. }
        unfold F. rewrite setOxy_amount, setOxy_bulk. cbn zeta in *. cbn [sum].
        split; [rewrite A', A; ring|]. split; [rewrite B', B; ring|].
        apply setOxy_stepOk. eapply stepOk_trans; [|exact C']. unfold stepOk; auto. }
    destruct (P (na tab i) (le_n _)) as (A & B & C). auto.
Qed.

(** all solid assimilants *)
Lemma assimSolids_spec s :
  (hasLiquid s = true -> (0 < nLiq s)%nat) -> (hasLiquid s = false -> emptyAbsent s) ->
  let t := loop (npc tab) (fun i s => loop (nAss a i) (assimColumn tab a f i) s) s in
  amount tab q t = amount tab q s + f * sum (npc tab) (fun i => if isPhase tab i then sum (nAss a i) (assimRows q i) else 0) /\
  bulk t o = bulk s o + f * sum (npc tab) (fun i => if isPhase tab i then sum (nAss a i) (assimRows (oxide tab o) i) else 0) /\
  stepOk s t.
Proof.
  intros H1 H2. cbn zeta. set (F := fun i s => loop (nAss a i) (assimColumn tab a f i) s).
  assert (Col : forall i n u, (i < npc tab)%nat -> (hasLiquid u = true -> (0 < nLiq u)%nat) -> (hasLiquid u = false -> emptyAbsent u) ->
     amount tab q (loop n (assimColumn tab a f i) u) = amount tab q u + f * (if isPhase tab i then sum n (assimRows q i) else 0) /\
     bulk (loop n (assimColumn tab a f i) u) o = bulk u o + f * (if isPhase tab i then sum n (assimRows (oxide tab o) i) else 0) /\
     stepOk u (loop n (assimColumn tab a f i) u)).
  { intros i n u Hi K1 K2. induction n.
    - cbn. split; [destruct (isPhase tab i); ring|]. split; [destruct (isPhase tab i); ring|apply stepOk_refl].
    - destruct IHn as (A & B & C). rewrite loop_S. set (t := loop n _ u) in *. pose proof C as (C1 & C2 & C3).
      destruct (assimColumn_spec i n t Hi) as (A' & B' & C'). { rewrite C1, C2. auto. } { rewrite C2. auto. }
      split; [rewrite A', A; destruct (isPhase tab i); cbn [sum]; ring|].
      split; [rewrite B', B; destruct (isPhase tab i); cbn [sum]; ring|]. eapply stepOk_trans; eauto. }
  assert (P : forall n, (n <= npc tab)%nat ->
    amount tab q (loop n F s) = amount tab q s + f * sum n (fun i => if isPhase tab i then sum (nAss a i) (assimRows q i) else 0) /\
    bulk (loop n F s) o = bulk s o + f * sum n (fun i => if isPhase tab i then sum (nAss a i) (assimRows (oxide tab o) i) else 0) /\
    stepOk s (loop n F s)).
  { induction n; intros Hn.
    - cbn. split; [ring|]. split; [ring|apply stepOk_refl].
    - destruct (IHn ltac:(lia)) as (A & B & C). rewrite loop_S. set (t := loop n F s) in *. pose proof C as (C1 & C2 & C3).
      unfold F. destruct (Col n (nAss a n) t ltac:(lia)) as (A' & B' & C'). { rewrite C1, C2. auto. } { rewrite C2. auto. }
      cbn [sum]. split; [rewrite A', A; ring|]. split; [rewrite B', B; ring|]. eapply stepOk_trans; eauto. }
  apply P. lia.
Qed.

Lemma assimLiquid_spec ns s : (0 < nLiq s)%nat ->
  let t := assimLiquid tab a f ns s in
  amount tab q t = amount tab q s + f * sum (nlc tab) (fun j => perLiq q j * assL a j ns) /\
  bulk t o = bulk s o + f * sum (nlc tab) (fun j => liqToOx tab j o * assL a j ns) /\ nLiq t = nLiq s.
Proof.
  intros NL. unfold assimLiquid. cbn zeta. match goal with |- context [loop (nlc tab) ?g _] => set (F := g) end.
  set (s1 := setHas true s).
  assert (P : forall m, (m <= nlc tab)%nat ->
    amount tab q (loop m F s1) = amount tab q s + f * sum m (fun j => perLiq q j * assL a j ns) /\
    bulk (loop m F s1) o = bulk s o + f * sum m (fun j => liqToOx tab j o * assL a j ns) /\ nLiq (loop m F s1) = nLiq s).
  { induction m; intros Hm.
    - cbn [loop sum]. split; [change (amount tab q s1) with (amount tab q s); ring|]. split; [cbn; ring|reflexivity].
    - destruct (IHm ltac:(lia)) as (A & B & C). rewrite loop_S. set (t := loop m F s1) in *. unfold F.
      rewrite setOxy_amount, setOxy_bulk.
      set (t1 := setLiq 0 m (liqC t 0 m + f * assL a m ns) t).
      assert (A1 : amount tab q t1 = amount tab q t + perLiq q m * (f * assL a m ns)).
      { unfold amount. change (inSolids tab q t1) with (inSolids tab q t).
        enough (inLiquids tab q t1 = inLiquids tab q t + perLiq q m * (f * assL a m ns)) by lra.
        unfold inLiquids. change (nLiq t1) with (nLiq t).
        rewrite (sum_at (nLiq t) 0 _ (inLiquid tab q t)).
        - unfold inLiquid. change (liqC t1) with (upd2 (liqC t) 0 m (liqC t 0 m + f * assL a m ns)).
          rewrite (sum_at (nlc tab) m (fun j => perLiq q j * upd2 (liqC t) 0 m (liqC t 0 m + f * assL a m ns) 0 j) (fun j => perLiq q j * liqC t 0 j)).
          + rewrite upd2_eq. ring.
          + intros k _ Nk. rewrite upd2_col by auto. reflexivity.
          + lia.
        - intros n _ Nn. unfold inLiquid. apply sum_ext. intros j Hj.
          change (liqC t1) with (upd2 (liqC t) 0 m (liqC t 0 m + f * assL a m ns)). rewrite upd2_row by auto. reflexivity.
        - rewrite C. auto. }
      split; [|split].
      + match goal with |- context [amount tab q (addBulk tab ?g t1)] => change (amount tab q (addBulk tab g t1)) with (amount tab q t1) end.
        rewrite A1, A. cbn [sum]. ring.
      + rewrite addBulk_at by auto. change (bulk t1 o) with (bulk t o). rewrite B. cbn [sum]. ring.
      + match goal with |- nLiq (if ?b then _ else _) = _ => destruct b end; exact C. }
  apply P. lia.
Qed.

Definition assimAmount (q : Quantity) : R :=
  sum (npc tab) (fun i => if isPhase tab i then sum (nAss a i) (assimRows q i) else 0) +
  sum (nAssLiq a) (fun ns => sum (nlc tab) (fun j => perLiq q j * assL a j ns)).

End One.

Theorem assimilate_spec q o s : agrees tab q -> (o < nc tab)%nat ->
  (hasLiquid s = true \/ (0 < nAssLiq a)%nat -> (0 < nLiq s)%nat) -> (hasLiquid s = false -> emptyAbsent s) ->
  let t := assimilate tab a f s in
  amount tab q t = amount tab q s + f * assimAmount q /\
  bulk t o = bulk s o + f * assimAmount (oxide tab o).
Proof.
  intros Agr Ho H1 H2. unfold assimilate. cbn zeta.
  destruct (assimSolids_spec q o Agr Ho s (fun H => H1 (or_introl H)) H2) as (A & B & C). cbn zeta in *.
  set (t := loop (npc tab) _ s) in *. destruct C as (C1 & C2 & C3).
  unfold assimAmount.
  assert (P : forall n, (n <= nAssLiq a)%nat ->
    amount tab q (loop n (assimLiquid tab a f) t) = amount tab q t + f * sum n (fun ns => sum (nlc tab) (fun j => perLiq q j * assL a j ns)) /\
    bulk (loop n (assimLiquid tab a f) t) o = bulk t o + f * sum n (fun ns => sum (nlc tab) (fun j => liqToOx tab j o * assL a j ns)) /\
    nLiq (loop n (assimLiquid tab a f) t) = nLiq t).
  { induction n; intros Hn.
    - cbn. split; [ring|]. split; [ring|reflexivity].
    - destruct (IHn ltac:(lia)) as (A' & B' & C'). rewrite loop_S. set (u := loop n _ t) in *.
      destruct (assimLiquid_spec q o Ho n u) as (A2 & B2 & D2).
      { rewrite C', C1. apply H1. right. lia. }
      cbn zeta in *. cbn [sum]. split; [rewrite A2, A'; ring|]. split; [rewrite B2, B'; ring|]. congruence. }
  destruct (P (nAssLiq a) (le_n _)) as (A' & B' & _). cbn [perLiq oxide].
  split; [rewrite A', A; ring|]. rewrite B', B. ring.
Qed.

End Assimilation.
