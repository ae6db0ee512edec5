(** What is assimilated is what was entered: masses, oxides and thermodynamic properties of the assimilants. *)
From Coq Require Import Reals List Arith Lia Lra Bool.
Import ListNotations.
From Verif Require Import MassModel MassSpec MassProofs MassFrac MassProps AsmModel.
Open Scope R_scope.

(** ** Specification *)
(** one call of AddAssimilant: the number of a solid phase (or, equal to npc, the liquid), grams, and percentages: of end
    member j in place j+1 for a solution, of oxide o in place o for the liquid *)
Record Call : Type := mkCall { phase : nat; grams : R; percent : nat -> R }.
Definition enter (tab : Tab) (calls : list Call) : Asm :=
  fold_left (fun a c => addAssimilant tab (phase c) (grams c) (percent c) a) calls clearAll.

Section Spec.
Variable tab : Tab.
(** grams in a hundred moles of a solution whose end members have these percentages *)
Definition weight (ph : nat) (em : nat -> R) : R := sum (na tab ph) (fun j => em (S j) * smw tab (ph+1+j)%nat).
(** moles of oxide o in what a call describes *)
Definition oxideIn (c : Call) (o : nat) : R :=
  if Nat.eqb (phase c) (npc tab) then percent c o / 100 * grams c / omw tab o
  else if Nat.eqb (na tab (phase c)) 1 then grams c / smw tab (phase c) * solToOx tab (phase c) o
  else grams c / weight (phase c) (percent c) * sum (na tab (phase c)) (fun j => percent c (S j) * solToOx tab (phase c+1+j)%nat o).
(** solids add up, each liquid replaces the one before *)
Definition totals (f : Call -> R) (calls : list Call) : R * R :=
  fold_left (fun p c => if Nat.eqb (phase c) (npc tab) then (fst p, f c) else (fst p + f c, snd p)) calls (0, 0).
Definition intake (f : Call -> R) (calls : list Call) : R := fst (totals f calls) + snd (totals f calls).
(** a call that describes some matter *)
Definition describes (c : Call) : Prop :=
  phase c = npc tab \/
  (phase c < npc tab)%nat /\ isPhase tab (phase c) = true /\
  (na tab (phase c) = 1%nat -> smw tab (phase c) <> 0) /\ ((1 < na tab (phase c))%nat -> weight (phase c) (percent c) <> 0).
(** the percentages of a liquid sum to 100 *)
Definition complete (c : Call) : Prop := phase c = npc tab -> sum (nc tab) (percent c) = 100.
(** the percentages of end members sum to 100 *)
Definition full (c : Call) : Prop := (phase c < npc tab)%nat -> (1 < na tab (phase c))%nat -> sum (na tab (phase c)) (fun j => percent c (S j)) = 100.
End Spec.

Lemma loop_add_R n (f : nat -> R) x : loop n (fun i v => v + f i) x = x + sum n f.
Proof. induction n; cbn; [ring|rewrite IHn; ring]. Qed.
Section P.
Variable tab : Tab.
Hypothesis Lay : layout tab.

(** ** One call *)
Definition quiet (g : Assim) : Prop :=
  (forall i, (i < npc tab)%nat -> isPhase tab i = true ->
     nAss g i = 1%nat \/ (nAss g i = O /\ assC g i 0%nat = 0 /\ (na tab i <> 1%nat -> forall j, (j < na tab i)%nat -> assC g (i+1+j)%nat 0%nat = 0))) /\
  (nAssLiq g = 1%nat \/ (nAssLiq g = O /\ forall j, assL g j 0%nat = 0)).
Definition solidsOf (g : Assim) (q : Quantity) : R := sum (npc tab) (fun i => if isPhase tab i then assimRows tab g q i 0 else 0).
Definition liquidOf (g : Assim) (q : Quantity) : R := sum (nlc tab) (fun j => perLiq q j * assL g j 0%nat).
Lemma quiet_amount g q : quiet g -> assimAmount tab g q = solidsOf g q + liquidOf g q.
Proof.
  intros (A & B). unfold assimAmount, solidsOf, liquidOf. f_equal.
  - apply sum_ext. intros i Hi. destruct (isPhase tab i) eqn:P; [|reflexivity].
    destruct (A i Hi P) as [N|(N & Z0 & Z1)]; rewrite N; cbn [sum]; [ring|].
    unfold assimRows. destruct (Nat.eqb_spec (na tab i) 1) as [E|E]; [rewrite Z0; ring|]. symmetry. apply sum_0. intros j Hj. rewrite Z1 by auto. ring.
  - destruct B as [N|(N & Z)]; rewrite N; cbn [sum]; [ring|]. symmetry. apply sum_0. intros j Hj. rewrite Z. ring.
Qed.

(** the rows of different phases are different *)
Lemma rows_apart i ph j : (i < npc tab)%nat -> isPhase tab i = true -> (ph < npc tab)%nat -> isPhase tab ph = true -> (1 < na tab ph)%nat ->
  (j < na tab ph)%nat -> (ph + 1 + j)%nat <> i.
Proof.
  intros Hi Pi Hp Pp N Hj E. destruct (Lay ph Hp Pp) as [_ B]. destruct (B N) as [_ C]. specialize (C (1 + j)%nat ltac:(lia)).
  replace (ph + (1 + j))%nat with i in C by lia. congruence.
Qed.
Lemma rows_disjoint i ph j k : i <> ph -> (i < npc tab)%nat -> isPhase tab i = true -> (ph < npc tab)%nat -> isPhase tab ph = true ->
  (1 < na tab i)%nat -> (1 < na tab ph)%nat -> (j < na tab ph)%nat -> (k < na tab i)%nat -> (ph + 1 + j)%nat <> (i + 1 + k)%nat.
Proof.
  intros N Hi Pi Hp Pp Ni Np Hj Hk E. destruct (Nat.lt_total i ph) as [L|[L|L]]; [|contradiction|].
  - apply (rows_apart ph i (ph - i - 1)%nat); auto; lia.
  - apply (rows_apart i ph (i - ph - 1)%nat); auto; lia.
Qed.

(** the cells a solution's call writes *)
Lemma loop_cells n ph (v : nat -> R) (c : nat -> nat -> R) i ns :
  loop n (fun j c => upd2 c (ph+1+j) 0 (c (ph+1+j)%nat 0%nat + v j)) c i ns =
  c i ns + (if Nat.eqb ns 0 then if Nat.leb (ph+1) i && Nat.ltb i (ph+1+n) then v (i - (ph+1))%nat else 0 else 0).
Proof.
  revert i ns; induction n as [|n IH]; intros i ns.
  { cbn [loop]. destruct (Nat.eqb ns 0); [|ring]. destruct (Nat.leb_spec (ph+1) i); cbn [andb]; [|ring]. destruct (Nat.ltb_spec i (ph+1+0)); [lia|ring]. }
  cbn [loop]. unfold upd2 at 1. rewrite !IH. cbn [Nat.eqb]. destruct ns as [|ns]; cbn [Nat.eqb].
  - rewrite andb_true_r. destruct (Nat.eqb_spec i (ph+1+n)) as [D|D].
    + subst i. replace (ph + 1 + n - (ph + 1))%nat with n by lia.
      destruct (Nat.leb_spec (ph+1) (ph+1+n)); [|lia]. destruct (Nat.ltb_spec (ph+1+n) (ph+1+n)); [lia|]. destruct (Nat.ltb_spec (ph+1+n) (ph+1+S n)); [|lia]. cbn [andb]. ring.
    + destruct (Nat.leb_spec (ph+1) i); cbn [andb]; [|ring].
      destruct (Nat.ltb_spec i (ph+1+n)); destruct (Nat.ltb_spec i (ph+1+S n)); try lia; ring.
  - rewrite andb_false_r. ring.
Qed.

Definition callMoles (c : Call) : R := if Req_EM_T (weight tab (phase c) (percent c) / 100) 0 then 0 else grams c / (weight tab (phase c) (percent c) / 100).
Lemma addSolid_pure ph mass em g : na tab ph = 1%nat ->
  addSolid tab ph mass em g = mkAssim (nAss g) (nAssLiq g) (upd2 (assC g) ph 0 (assC g ph 0%nat + mass / smw tab ph)) (assL g).
Proof. intros N. unfold addSolid. now rewrite N. Qed.
Lemma addSolid_solution ph mass em g i : (1 < na tab ph)%nat -> let m := callMoles (mkCall ph mass em) in
  assC (addSolid tab ph mass em g) i 0%nat =
    assC g i 0%nat + (if Nat.leb (ph+1) i && Nat.ltb i (ph+1+na tab ph) then em (i - ph)%nat * m / 100 else 0) + (if Nat.eqb i ph then m else 0).
Proof.
  intros N. cbv zeta. unfold addSolid. destruct (Nat.eqb_spec (na tab ph) 1); [lia|]. cbv zeta. cbn [assC].
  assert (W : loop (na tab ph) (fun j x => x + em (j+1)%nat * smw tab (ph+1+j) / 100) 0 = weight tab ph em / 100).
  { rewrite (loop_add_R (na tab ph) (fun j => em (j+1)%nat * smw tab (ph+1+j) / 100)). unfold weight, Rdiv.
    rewrite <- sum_scal_r, Rplus_0_l. apply sum_ext. intros j _. now rewrite Nat.add_1_r. }
  rewrite W. change (if Req_EM_T (weight tab ph em / 100) 0 then 0 else mass / (weight tab ph em / 100)) with (callMoles (mkCall ph mass em)).
  set (m := callMoles _). unfold upd2 at 1. rewrite !(loop_cells _ ph (fun j => em (j+1)%nat * m / 100)). cbn [Nat.eqb].
  rewrite andb_true_r. destruct (Nat.eqb_spec i ph) as [->|D].
  - destruct (Nat.leb_spec (ph+1) ph); [lia|]. cbn [andb]. ring.
  - destruct (Nat.leb_spec (ph+1) i); cbn [andb]; [|ring]. destruct (Nat.ltb_spec i (ph+1+na tab ph)); [|ring].
    replace (i - (ph+1) + 1)%nat with (i - ph)%nat by lia. ring.
Qed.

(** what a call for a solid adds to any quantity *)
Definition solidIn (c : Call) (q : Quantity) : R :=
  if Nat.eqb (na tab (phase c)) 1 then perSol q (phase c) * (grams c / smw tab (phase c))
  else sum (na tab (phase c)) (fun j => perSol q (phase c+1+j)%nat * (percent c (S j) * callMoles c / 100)).
Lemma addSolid_rows c g q i : (phase c < npc tab)%nat -> isPhase tab (phase c) = true -> (i < npc tab)%nat -> isPhase tab i = true ->
  assimRows tab (addSolid tab (phase c) (grams c) (percent c) g) q i 0 = assimRows tab g q i 0 + (if Nat.eqb i (phase c) then solidIn c q else 0).
Proof.
  intros Hp Pp Hi Pi. destruct c as [ph mass em]. cbn [phase grams percent] in *. unfold solidIn. cbn [phase grams percent].
  destruct (Lay ph Hp Pp) as [A _]. destruct (Lay i Hi Pi) as [B _]. unfold assimRows.
  destruct (Nat.eqb_spec (na tab ph) 1) as [E|E].
  - rewrite addSolid_pure by exact E. cbn [assC]. destruct (Nat.eqb_spec i ph) as [D|D].
    + subst i. destruct (Nat.eqb_spec (na tab ph) 1); [|contradiction]. unfold upd2. rewrite !Nat.eqb_refl. cbn [andb]. ring.
    + destruct (Nat.eqb_spec (na tab i) 1) as [F|F].
      * unfold upd2. destruct (Nat.eqb_spec i ph); [contradiction|]. cbn [andb]. ring.
      * rewrite Rplus_0_r. apply sum_ext. intros j Hj. unfold upd2.
        destruct (Nat.eqb_spec (i+1+j)%nat ph) as [G|G]; [|reflexivity]. exfalso. apply (rows_apart ph i j); auto; lia.
  - assert (N : (1 < na tab ph)%nat) by lia. destruct (Nat.eqb_spec i ph) as [D|D].
    + subst i. destruct (Nat.eqb_spec (na tab ph) 1); [contradiction|].
      rewrite (sum_ext (na tab ph) (fun j => perSol q (ph+1+j)%nat * assC (addSolid tab ph mass em g) (ph+1+j)%nat 0%nat)
        (fun j => perSol q (ph+1+j)%nat * assC g (ph+1+j)%nat 0%nat + perSol q (ph+1+j)%nat * (em (S j) * callMoles (mkCall ph mass em) / 100))).
      * rewrite sum_plus. reflexivity.
      * intros j Hj. rewrite addSolid_solution by exact N.
        destruct (Nat.leb_spec (ph+1) (ph+1+j)); [|lia]. destruct (Nat.ltb_spec (ph+1+j) (ph+1+na tab ph)); [|lia]. cbn [andb].
        destruct (Nat.eqb_spec (ph+1+j)%nat ph); [lia|]. replace (ph + 1 + j - ph)%nat with (S j) by lia. ring.
    + assert (Out : forall k, k <> ph -> (forall j, (j < na tab ph)%nat -> k <> (ph+1+j)%nat) -> assC (addSolid tab ph mass em g) k 0%nat = assC g k 0%nat).
      { intros k K1 K2. rewrite addSolid_solution by exact N. destruct (Nat.eqb_spec k ph); [contradiction|].
        destruct (Nat.leb_spec (ph+1) k); cbn [andb]; [|ring]. destruct (Nat.ltb_spec k (ph+1+na tab ph)); [|ring].
        exfalso. apply (K2 (k - ph - 1)%nat); lia. }
      destruct (Nat.eqb_spec (na tab i) 1) as [F|F].
      * rewrite Out; [ring|exact D|]. intros j Hj G. apply (rows_apart i ph j); auto.
      * rewrite Rplus_0_r. apply sum_ext. intros j Hj. rewrite Out; [reflexivity| |].
        -- intros G. apply (rows_apart ph i j); auto; lia.
        -- intros k Hk G. apply (rows_disjoint i ph k j); auto; lia.
Qed.

Lemma nAss_addSolid ph mass em g : nAss (addSolid tab ph mass em g) = nAss g /\ nAssLiq (addSolid tab ph mass em g) = nAssLiq g /\ assL (addSolid tab ph mass em g) = assL g.
Proof. unfold addSolid. now destruct (Nat.eqb (na tab ph) 1). Qed.

Notation add c a := (addAssimilant tab (phase c) (grams c) (percent c) a).
(** a solid *)
Lemma add_solid c a q : (phase c < npc tab)%nat -> isPhase tab (phase c) = true -> quiet (asg a) ->
  quiet (asg (add c a)) /\ solidsOf (asg (add c a)) q = solidsOf (asg a) q + solidIn c q /\
  liquidOf (asg (add c a)) q = liquidOf (asg a) q /\ stepMass (add c a) = stepMass a + grams c /\ liqPart (add c a) = liqPart a.
Proof.
  intros Hp Pp (Q1 & Q2). unfold addAssimilant. cbv zeta. destruct (Nat.eqb_spec (phase c) (npc tab)); [lia|].
  destruct (Nat.ltb_spec (phase c) (npc tab)); [|lia]. cbn [asg stepMass liqPart].
  set (g0 := mkAssim (upd (nAss (asg a)) (phase c) 1%nat) (nAssLiq (asg a)) (assC (asg a)) (assL (asg a))).
  destruct (nAss_addSolid (phase c) (grams c) (percent c) g0) as (E1 & E2 & E3).
  assert (Out : forall i, (i < npc tab)%nat -> isPhase tab i = true -> i <> phase c ->
    assC (addSolid tab (phase c) (grams c) (percent c) g0) i 0%nat = assC (asg a) i 0%nat /\
    forall j, (j < na tab i)%nat -> (1 < na tab i)%nat -> assC (addSolid tab (phase c) (grams c) (percent c) g0) (i+1+j)%nat 0%nat = assC (asg a) (i+1+j)%nat 0%nat).
  { intros i Hi Pi D. destruct (Lay (phase c) Hp Pp) as [A _].
    destruct (Nat.eq_dec (na tab (phase c)) 1) as [E|E].
    - rewrite addSolid_pure by exact E. cbn [assC g0]. unfold upd2. split.
      + destruct (Nat.eqb_spec i (phase c)); [contradiction|reflexivity].
      + intros j Hj N. destruct (Nat.eqb_spec (i+1+j)%nat (phase c)) as [G|G]; [|reflexivity]. exfalso. apply (rows_apart (phase c) i j); auto.
    - assert (N : (1 < na tab (phase c))%nat) by lia.
      assert (O : forall k, k <> phase c -> (forall j, (j < na tab (phase c))%nat -> k <> (phase c+1+j)%nat) -> assC (addSolid tab (phase c) (grams c) (percent c) g0) k 0%nat = assC (asg a) k 0%nat).
      { intros k K1 K2. rewrite addSolid_solution by exact N. cbn [assC g0]. destruct (Nat.eqb_spec k (phase c)); [contradiction|].
        destruct (Nat.leb_spec (phase c+1) k); cbn [andb]; [|ring]. destruct (Nat.ltb_spec k (phase c+1+na tab (phase c))); [|ring].
        exfalso. apply (K2 (k - phase c - 1)%nat); lia. }
      split.
      + apply O; [exact D|]. intros j Hj G. apply (rows_apart i (phase c) j); auto.
      + intros j Hj Ni. apply O.
        * intros G. apply (rows_apart (phase c) i j); auto.
        * intros k Hk G. apply (rows_disjoint i (phase c) k j); auto. }
  split; [|split; [|split; [|split]]].
  - split.
    + intros i Hi Pi. rewrite E1. cbn [nAss g0]. unfold upd. destruct (Nat.eqb_spec i (phase c)) as [D|D]; [now left|].
      destruct (Out i Hi Pi D) as [O1 O2].
      destruct (Q1 i Hi Pi) as [K|(K & Z0 & Z1)]; [now left|].
      right. rewrite O1. split; [exact K|]. split; [exact Z0|]. intros E j Hj.
      destruct (Lay i Hi Pi) as [B _]. rewrite O2 by lia. now apply Z1.
    + rewrite E2, E3. exact Q2.
  - unfold solidsOf. rewrite (sum_ext (npc tab) _ (fun i => (if isPhase tab i then assimRows tab (asg a) q i 0 else 0) + (if Nat.eqb i (phase c) then solidIn c q else 0))).
    + rewrite sum_plus. f_equal. rewrite (sum_one_f (npc tab) (phase c) (fun _ => solidIn c q)). apply Nat.ltb_lt in Hp. now rewrite Hp.
    + intros i Hi. destruct (isPhase tab i) eqn:Pi.
      * rewrite addSolid_rows by auto. reflexivity.
      * destruct (Nat.eqb_spec i (phase c)); [congruence|ring].
  - unfold liquidOf. now rewrite E3.
  - reflexivity.
  - reflexivity.
Qed.
(** a liquid *)
Lemma add_liquid c a q : phase c = npc tab -> quiet (asg a) ->
  quiet (asg (add c a)) /\ solidsOf (asg (add c a)) q = solidsOf (asg a) q /\
  liquidOf (asg (add c a)) q = sum (nlc tab) (fun j => perLiq q j * sum (nc tab) (fun o => percent c o * grams c / (100 * omw tab o) * oxToLiq tab o j)) /\
  stepMass (add c a) = stepMass a + grams c - liqPart a /\ liqPart (add c a) = grams c.
Proof.
  intros Hp (Q1 & Q2). unfold addAssimilant. cbv zeta. rewrite Hp, Nat.eqb_refl, Nat.ltb_irrefl. cbn [asg stepMass liqPart].
  split; [|split; [|split; [|split]]]; try reflexivity.
  - split; [exact Q1|]. left. reflexivity.
  - unfold liquidOf. apply sum_ext. intros j Hj. f_equal. cbn [setLiquid assL]. apply Nat.ltb_lt in Hj. rewrite Hj. cbn [andb Nat.eqb].
    rewrite (loop_add_R (nc tab) (fun o => (if Req_EM_T (percent c o) 0 then 0 else percent c o * grams c / (100 * omw tab o)) * oxToLiq tab o j)), Rplus_0_l.
    apply sum_ext. intros o Ho. destruct (Req_EM_T (percent c o) 0) as [E|E]; [|reflexivity]. rewrite E. unfold Rdiv. ring.
Qed.

(** ** C211 *)
Section Tables.
Hypothesis Inv : invertible tab.
Hypothesis Mw : forall o, (o < nc tab)%nat -> omw tab o <> 0.
Lemma liquid_oxide c o : phase c = npc tab -> (o < nc tab)%nat ->
  sum (nlc tab) (fun j => perLiq (oxide tab o) j * sum (nc tab) (fun o => percent c o * grams c / (100 * omw tab o) * oxToLiq tab o j)) = oxideIn tab c o.
Proof.
  intros Hp Ho. cbn [oxide perLiq].
  rewrite (sum_ext (nlc tab) _ (fun j => sum (nc tab) (fun o' => percent c o' * grams c / (100 * omw tab o') * oxToLiq tab o' j) * liqToOx tab j o)) by (intros; ring).
  rewrite (Inv (fun o' => percent c o' * grams c / (100 * omw tab o')) o Ho). unfold oxideIn. rewrite Hp, Nat.eqb_refl. field. auto.
Qed.
Lemma solid_oxide c o : (phase c < npc tab)%nat -> describes tab c -> solidIn c (oxide tab o) = oxideIn tab c o.
Proof.
  intros Hp [D|(_ & Pp & D1 & D2)]; [lia|]. destruct (Lay _ Hp Pp) as [A _]. unfold solidIn, oxideIn.
  destruct (Nat.eqb_spec (phase c) (npc tab)); [lia|]. cbn [oxide perSol].
  destruct (Nat.eqb_spec (na tab (phase c)) 1) as [E|E]; [ring|]. specialize (D2 ltac:(lia)).
  rewrite (sum_ext _ _ (fun j => grams c / weight tab (phase c) (percent c) * (percent c (S j) * solToOx tab (phase c+1+j)%nat o))).
  - rewrite sum_scal. reflexivity.
  - intros j Hj. unfold callMoles. set (w := weight _ _ _) in *. destruct (Req_EM_T (w / 100) 0) as [Z|Z]; [exfalso; apply D2; lra|]. field. exact D2.
Qed.

Definition reached (a : Asm) (t : nat -> R * R) (m : R * R) : Prop :=
  quiet (asg a) /\ (forall o, (o < nc tab)%nat -> solidsOf (asg a) (oxide tab o) = fst (t o) /\ liquidOf (asg a) (oxide tab o) = snd (t o)) /\
  stepMass a = fst m + snd m /\ liqPart a = snd m.
Lemma reach_all calls : forall a t m, reached a t m -> (forall c, In c calls -> describes tab c) ->
  reached (fold_left (fun a c => add c a) calls a)
    (fun o => fold_left (fun p c => if Nat.eqb (phase c) (npc tab) then (fst p, oxideIn tab c o) else (fst p + oxideIn tab c o, snd p)) calls (t o))
    (fold_left (fun p c => if Nat.eqb (phase c) (npc tab) then (fst p, grams c) else (fst p + grams c, snd p)) calls m).
Proof.
  induction calls as [|c calls IH]; intros a t m (Q & T & M & L) V; [now split|]. cbn [fold_left]. specialize (V c) as Vc.
  apply (IH (add c a) (fun o => if Nat.eqb (phase c) (npc tab) then (fst (t o), oxideIn tab c o) else (fst (t o) + oxideIn tab c o, snd (t o)))); [|intros; apply V; now right].
  specialize (Vc (or_introl eq_refl)). destruct (Nat.eqb_spec (phase c) (npc tab)) as [E|E].
  - split; [|split; [|split]].
    + apply (add_liquid c a (oxide tab 0) E Q).
    + intros o Ho. destruct (add_liquid c a (oxide tab o) E Q) as (_ & S1 & S2 & _). cbn [fst snd]. rewrite S1, S2, (liquid_oxide c o E Ho). split; [now apply T|reflexivity].
    + destruct (add_liquid c a (oxide tab 0) E Q) as (_ & _ & _ & S & _). cbn [fst snd]. rewrite S, M, L. ring.
    + cbn [snd]. apply (add_liquid c a (oxide tab 0) E Q).
  - destruct Vc as [Vc|Vc]; [contradiction|]. destruct Vc as (Hp & Pp & Vr).
    split; [|split; [|split]].
    + apply (add_solid c a (oxide tab 0) Hp Pp Q).
    + intros o Ho. destruct (add_solid c a (oxide tab o) Hp Pp Q) as (_ & S1 & S2 & _). cbn [fst snd].
      rewrite S1, S2, (solid_oxide c o Hp (or_intror (conj Hp (conj Pp Vr)))). destruct (T o Ho) as [T1 T2]. now rewrite T1, T2.
    + destruct (add_solid c a (oxide tab 0) Hp Pp Q) as (_ & _ & _ & S & _). cbn [fst snd]. rewrite S, M. ring.
    + cbn [snd]. destruct (add_solid c a (oxide tab 0) Hp Pp Q) as (_ & _ & _ & _ & S). now rewrite S.
Qed.
Lemma reached_clear : reached clearAll (fun _ => (0, 0)) (0, 0).
Proof.
  split; [|split; [|split]]; try (cbn; ring).
  - split; [intros i Hi Pi; right; repeat split|right; split; reflexivity].
  - intros o Ho. split; cbn [fst snd]; [|apply sum_0; intros; cbn; ring]. unfold solidsOf. apply sum_0. intros i Hi.
    destruct (isPhase tab i); [|reflexivity]. unfold assimRows. cbn [clearAll asg assC]. destruct (Nat.eqb (na tab i) 1); [ring|]. apply sum_0. intros. ring.
Qed.
(** for any sequence of calls: the oxides that will be assimilated are those of the materials entered *)
Theorem C211_oxides : forall calls, (forall c, In c calls -> describes tab c) -> forall o, (o < nc tab)%nat ->
  assimAmount tab (asg (enter tab calls)) (oxide tab o) = intake tab (fun c => oxideIn tab c o) calls.
Proof.
  intros calls V o Ho. destruct (reach_all calls _ _ _ reached_clear V) as (Q & T & _). fold (enter tab calls) in *.
  rewrite quiet_amount by exact Q. destruct (T o Ho) as [T1 T2]. rewrite T1, T2. reflexivity.
Qed.
(** and the grams counted are the grams entered *)
Theorem C211_grams : forall calls, (forall c, In c calls -> describes tab c) ->
  stepMass (enter tab calls) = intake tab grams calls.
Proof.
  intros calls V. destruct (reach_all calls _ _ _ reached_clear V) as (_ & _ & M & _). fold (enter tab calls) in *. rewrite M. reflexivity.
Qed.

(** a mole of each row weighs what its oxides weigh (C46) *)
Hypothesis Wt : forall c, (c < npc tab)%nat -> smw tab c = sum (nc tab) (fun o => solToOx tab c o * omw tab o).
Lemma call_grams c : describes tab c -> complete tab c -> sum (nc tab) (fun o => omw tab o * oxideIn tab c o) = grams c.
Proof.
  intros D F. unfold oxideIn. destruct (Nat.eqb_spec (phase c) (npc tab)) as [E|E].
  - rewrite (sum_ext (nc tab) _ (fun o => percent c o * (grams c / 100))) by (intros; field; auto).
    rewrite sum_scal_r, (F E). field.
  - destruct D as [D|(Hp & Pp & D1 & D2)]; [contradiction|]. destruct (Lay _ Hp Pp) as [A B].
    destruct (Nat.eqb_spec (na tab (phase c)) 1) as [N|N].
    + rewrite (sum_ext (nc tab) _ (fun o => solToOx tab (phase c) o * omw tab o * (grams c / smw tab (phase c)))) by (intros; ring).
      rewrite sum_scal_r, <- Wt by exact Hp. field. auto.
    + specialize (D2 ltac:(lia)). destruct (B ltac:(lia)) as [B1 _].
      rewrite (sum_ext (nc tab) _ (fun o => sum (na tab (phase c)) (fun j => percent c (S j) * (solToOx tab (phase c+1+j)%nat o * omw tab o)) * (grams c / weight tab (phase c) (percent c)))).
      * rewrite sum_scal_r, sum_swap.
        rewrite (sum_ext (na tab (phase c)) _ (fun j => percent c (S j) * smw tab (phase c+1+j)%nat)).
        -- unfold weight in *. field. exact D2.
        -- intros j Hj. rewrite sum_scal. f_equal. symmetry. apply Wt. lia.
      * intros o Ho. rewrite (sum_ext _ (fun j => percent c (S j) * (solToOx tab (phase c+1+j)%nat o * omw tab o)) (fun j => percent c (S j) * solToOx tab (phase c+1+j)%nat o * omw tab o)) by (intros; ring).
        rewrite sum_scal_r. field. exact D2.
Qed.
Lemma intake_sum calls (f : nat -> Call -> R) (w : nat -> R) n : intake tab (fun c => sum n (fun o => w o * f o c)) calls = sum n (fun o => w o * intake tab (f o) calls).
Proof.
  unfold intake, totals.
  assert (K : forall cs (p : R * R) (t : nat -> R * R), fst p = sum n (fun o => w o * fst (t o)) -> snd p = sum n (fun o => w o * snd (t o)) ->
    let p' := fold_left (fun p c => if Nat.eqb (phase c) (npc tab) then (fst p, sum n (fun o => w o * f o c)) else (fst p + sum n (fun o => w o * f o c), snd p)) cs p in
    let t' := fun o => fold_left (fun p c => if Nat.eqb (phase c) (npc tab) then (fst p, f o c) else (fst p + f o c, snd p)) cs (t o) in
    fst p' = sum n (fun o => w o * fst (t' o)) /\ snd p' = sum n (fun o => w o * snd (t' o))).
  { induction cs as [|c cs IH]; intros p t H1 H2; [now split|]. cbn [fold_left].
    apply (IH _ (fun o => if Nat.eqb (phase c) (npc tab) then (fst (t o), f o c) else (fst (t o) + f o c, snd (t o)))).
    - destruct (Nat.eqb (phase c) (npc tab)); cbn [fst snd]; [exact H1|]. rewrite H1, <- sum_plus. apply sum_ext. intros; ring.
    - destruct (Nat.eqb (phase c) (npc tab)); cbn [fst snd]; [reflexivity|exact H2]. }
  destruct (K calls (0, 0) (fun _ => (0, 0))) as [K1 K2].
  - symmetry. apply sum_0. intros. cbn. ring.
  - symmetry. apply sum_0. intros. cbn. ring.
  - cbv zeta in K1, K2. rewrite K1, K2, <- sum_plus. apply sum_ext. intros; ring.
Qed.
Lemma intake_ext calls f g : (forall c, In c calls -> f c = g c) -> intake tab f calls = intake tab g calls.
Proof.
  intros E. unfold intake, totals. generalize (0, 0). induction calls as [|c cs IH]; intros p; [reflexivity|]. cbn [fold_left].
  rewrite (E c (or_introl eq_refl)). apply IH. intros; apply E. now right.
Qed.
(** the oxides weigh what was entered, so that assimilating raises the mass of the system by exactly that *)
Theorem C211_mass : forall calls, (forall c, In c calls -> describes tab c /\ complete tab c) ->
  sum (nc tab) (fun o => omw tab o * assimAmount tab (asg (enter tab calls)) (oxide tab o)) = stepMass (enter tab calls).
Proof.
  intros calls V. rewrite C211_grams by (intros; now apply V).
  rewrite (sum_ext (nc tab) _ (fun o => omw tab o * intake tab (fun c => oxideIn tab c o) calls)) by (intros o Ho; f_equal; apply C211_oxides; auto; intros; now apply V).
  rewrite <- (intake_sum calls (fun o c => oxideIn tab c o)). apply intake_ext. intros c Hc. destruct (V c Hc). now apply call_grams.
Qed.
Theorem C211_assimilated : (forall o, (o < nc tab)%nat -> agrees tab (oxide tab o)) ->
  forall calls s, (forall c, In c calls -> describes tab c /\ complete tab c) ->
  (0 < nLiq s)%nat -> (hasLiquid s = false -> emptyAbsent tab s) ->
  let s' := assimilate tab (asg (enter tab calls)) 1 s in
  (forall o, (o < nc tab)%nat -> bulk s' o = bulk s o + intake tab (fun c => oxideIn tab c o) calls) /\
  sum (nc tab) (fun o => bulk s' o * omw tab o) = sum (nc tab) (fun o => bulk s o * omw tab o) + stepMass (enter tab calls) /\
  (balanced tab s -> balanced tab s').
Proof.
  intros Agr calls s V NL Em. cbv zeta.
  pose proof (C44_assimilate tab (asg (enter tab calls)) 1 s Lay Agr NL Em) as K. cbv zeta in K.
  split; [|split].
  - intros o Ho. destruct (K o Ho) as [B _]. rewrite B, C211_oxides by (auto; intros; now apply V). ring.
  - rewrite <- C211_mass by exact V. rewrite <- sum_plus. apply sum_ext. intros o Ho. destruct (K o Ho) as [B _]. rewrite B. ring.
  - intros Bal o Ho. destruct (K o Ho) as [B A]. rewrite B, A, (Bal o Ho). reflexivity.
Qed.
End Tables.
End P.

(** ** C212: the thermodynamic property (enthalpy, entropy, volume) of what is assimilated *)
Section Thermo.
Variable tab : Tab.
Hypothesis Lay : layout tab.
Variable pureS pureL : nat -> R.
Variable mixS : nat -> (nat -> R) -> R.
Variable mixL : (nat -> R) -> R.
Notation add c a := (addAssimilant tab (phase c) (grams c) (percent c) a).

(** the property of a pure phase, or of a solution with the given moles of its rows: mechanical mixture plus mixing,
    the latter times the moles of solution *)
Definition phaseProp (held : nat -> R) (i : nat) : R :=
  if Nat.eqb (na tab i) 1 then held i * pureS i
  else sum (na tab i) (fun j => held (i+1+j)%nat) * mixS i (fun j => held (i+1+j)%nat)
       + sum (na tab i) (fun j => held (i+1+j)%nat * pureS (i+1+j)%nat).
Definition solidsProp (held : nat -> R) : R := sum (npc tab) (fun i => if isPhase tab i then phaseProp held i else 0).

(** the phase row of a solution holds the sum of its end members *)
Definition summed (g : Assim) : Prop :=
  forall i, (i < npc tab)%nat -> isPhase tab i = true -> (1 < na tab i)%nat -> assC g i 0%nat = sum (na tab i) (fun j => assC g (i+1+j)%nat 0%nat).
Lemma summed_solid ph mass em g : (ph < npc tab)%nat -> isPhase tab ph = true ->
  ((1 < na tab ph)%nat -> sum (na tab ph) (fun j => em (S j)) = 100) -> summed g -> summed (addSolid tab ph mass em g).
Proof.
  intros Hp Pp F S i Hi Pi N. destruct (Lay ph Hp Pp) as [A _].
  destruct (Nat.eq_dec (na tab ph) 1) as [E|E].
  - rewrite addSolid_pure by exact E. cbn [assC]. unfold upd2. destruct (Nat.eqb_spec i ph) as [D|D]; [subst i; lia|]. cbn [andb].
    rewrite (S i Hi Pi N). apply sum_ext. intros j Hj. destruct (Nat.eqb_spec (i+1+j)%nat ph) as [G|G]; [|reflexivity].
    exfalso. apply (rows_apart tab Lay ph i j); auto.
  - assert (Np : (1 < na tab ph)%nat) by lia. rewrite addSolid_solution by exact Np. set (m := callMoles _ _).
    destruct (Nat.eqb_spec i ph) as [D|D].
    + subst i. destruct (Nat.leb_spec (ph+1) ph); [lia|]. cbn [andb].
      rewrite (sum_ext (na tab ph) _ (fun j => assC g (ph+1+j)%nat 0%nat + em (Datatypes.S j) * (m / 100))).
      * rewrite sum_plus, (sum_scal_r (na tab ph) (m / 100) (fun j => em (Datatypes.S j))), (F Np), (S ph Hi Pi Np). field.
      * intros j Hj. rewrite addSolid_solution by exact Np. fold m.
        destruct (Nat.leb_spec (ph+1) (ph+1+j)); [|lia]. destruct (Nat.ltb_spec (ph+1+j) (ph+1+na tab ph)); [|lia]. cbn [andb].
        destruct (Nat.eqb_spec (ph+1+j)%nat ph); [lia|]. replace (ph + 1 + j - ph)%nat with (Datatypes.S j) by lia. field.
    + assert (Z : forall k, k <> ph -> (forall j, (j < na tab ph)%nat -> k <> (ph+1+j)%nat) ->
        assC g k 0%nat + (if Nat.leb (ph+1) k && Nat.ltb k (ph+1+na tab ph) then em (k - ph)%nat * m / 100 else 0) + (if Nat.eqb k ph then m else 0) = assC g k 0%nat).
      { intros k K1 K2. destruct (Nat.eqb_spec k ph); [contradiction|]. destruct (Nat.leb_spec (ph+1) k); cbn [andb]; [|ring].
        destruct (Nat.ltb_spec k (ph+1+na tab ph)); [|ring]. exfalso. apply (K2 (k - ph - 1)%nat); lia. }
      pose proof (Z i) as Zi. destruct (Nat.eqb_spec i ph); [contradiction|]. rewrite Zi; [|exact D|].
      * rewrite (S i Hi Pi N). apply sum_ext. intros j Hj. rewrite addSolid_solution by exact Np. fold m. symmetry. apply Z.
        -- intros G. apply (rows_apart tab Lay ph i j); auto.
        -- intros k Hk G. apply (rows_disjoint tab Lay i ph k j); auto.
      * intros j Hj G. apply (rows_apart tab Lay i ph j); auto.
Qed.
Lemma summed_all calls : (forall c, In c calls -> describes tab c /\ full tab c) -> forall a, summed (asg a) ->
  summed (asg (fold_left (fun a c => add c a) calls a)).
Proof.
  induction calls as [|c cs IH]; intros V a S; [exact S|]. cbn [fold_left]. apply IH; [intros; apply V; now right|].
  destruct (V c (or_introl eq_refl)) as [D F]. unfold addAssimilant. cbv zeta. cbn [asg].
  destruct (Nat.eqb_spec (phase c) (npc tab)) as [E|E].
  - rewrite E, Nat.ltb_irrefl. intros i Hi Pi N. cbn [setLiquid assC]. now apply S.
  - destruct D as [D|(Hp & Pp & _)]; [contradiction|]. destruct (Nat.ltb_spec (phase c) (npc tab)); [|lia].
    apply summed_solid; auto.
Qed.
Lemma solidProp_eq g i : summed g -> (i < npc tab)%nat -> isPhase tab i = true ->
  solidProp tab pureS mixS g i 0 = phaseProp (fun c => assC g c 0%nat) i.
Proof.
  intros S Hi Pi. unfold solidProp, phaseProp. destruct (Nat.eqb_spec (na tab i) 1) as [E|E]; [reflexivity|]. cbv zeta.
  destruct (Lay i Hi Pi) as [A _].
  rewrite (loop_add_R (na tab i) (fun j => assC g (i+1+j)%nat 0%nat * pureS (i+1+j)%nat)), <- (S i Hi Pi ltac:(lia)). ring.
Qed.
(** for any sequence of solids: the sum over the phases entered, each with the moles entered *)
Theorem C212_solids : forall calls garbage, (forall c, In c calls -> (phase c < npc tab)%nat /\ describes tab c /\ full tab c) ->
  stepMass (enter tab calls) <> 0 ->
  assimProp tab pureS pureL mixS mixL garbage (enter tab calls) = Some (solidsProp (fun c => assC (asg (enter tab calls)) c 0%nat)).
Proof.
  intros calls garbage V M. unfold assimProp. destruct (Req_EM_T (stepMass (enter tab calls)) 0); [contradiction|]. cbv zeta. f_equal.
  assert (Su : summed (asg (enter tab calls))).
  { apply summed_all; [intros c Hc; destruct (V c Hc); tauto|]. intros i Hi Pi N. cbn. symmetry. now apply sum_0. }
  assert (NL : nAssLiq (asg (enter tab calls)) = O).
  { unfold enter. assert (K : forall cs a, (forall c, In c cs -> (phase c < npc tab)%nat) -> nAssLiq (asg (fold_left (fun a c => add c a) cs a)) = nAssLiq (asg a)).
    { induction cs as [|c cs IH]; intros a W; [reflexivity|]. cbn [fold_left]. rewrite IH by (intros; apply W; now right).
      specialize (W c (or_introl eq_refl)). unfold addAssimilant. cbv zeta. cbn [asg]. destruct (Nat.eqb_spec (phase c) (npc tab)); [lia|].
      destruct (Nat.ltb_spec (phase c) (npc tab)); [|lia]. destruct (nAss_addSolid tab (phase c) (grams c) (percent c) (mkAssim (upd (nAss (asg a)) (phase c) 1%nat) (nAssLiq (asg a)) (assC (asg a)) (assL (asg a)))) as (_ & E & _). exact E. }
    rewrite K; [reflexivity|]. intros c Hc. now apply V. }
  assert (Q : quiet tab (asg (enter tab calls))).
  { unfold enter. assert (K : forall cs a, (forall c, In c cs -> (phase c < npc tab)%nat /\ describes tab c) -> quiet tab (asg a) -> quiet tab (asg (fold_left (fun a c => add c a) cs a))).
    { induction cs as [|c cs IH]; intros a W Qa; [exact Qa|]. cbn [fold_left]. apply IH; [intros; apply W; now right|].
      destruct (W c (or_introl eq_refl)) as [W1 [W2|(_ & W2 & _)]]; [lia|]. apply (add_solid tab Lay c a (oxide tab 0) W1 W2 Qa). }
    apply K; [intros c Hc; destruct (V c Hc); tauto|]. split; [intros i Hi Pi; right; repeat split|right; split; reflexivity]. }
  rewrite NL. cbn [loop]. unfold solidsProp. set (g := asg (enter tab calls)) in *. clearbody g. clear V M NL.
  destruct Q as [Q _].
  assert (K : forall n, (n <= npc tab)%nat -> loop n (fun i t => if isPhase tab i then loop (nAss g i) (fun ns t => t + solidProp tab pureS mixS g i ns) t else t) 0
    = sum n (fun i => if isPhase tab i then phaseProp (fun c => assC g c 0%nat) i else 0)).
  { induction n0 as [|k IH]; intros Hk; [reflexivity|]. cbn [loop sum]. rewrite IH by lia. destruct (isPhase tab k) eqn:Pk; [|ring].
    rewrite <- (solidProp_eq g k Su ltac:(lia) Pk). destruct (Q k ltac:(lia) Pk) as [N|(N & Z0 & Z1)]; rewrite N; cbn [loop]; [ring|].
    rewrite (solidProp_eq g k Su ltac:(lia) Pk). unfold phaseProp. destruct (Nat.eqb_spec (na tab k) 1) as [E|E]; [rewrite Z0; ring|].
    assert (S1 : sum (na tab k) (fun j => assC g (k+1+j)%nat 0%nat) = 0) by (apply sum_0; intros j Hj; now apply Z1).
    assert (S2 : sum (na tab k) (fun j => assC g (k+1+j)%nat 0%nat * pureS (k+1+j)%nat) = 0) by (apply sum_0; intros j Hj; rewrite Z1 by auto; ring).
    rewrite S1, S2. ring. }
  now apply K.
Qed.
End Thermo.

(** ** C213: with a liquid among the assimilants, the answer depends on what the stack holds *)
Theorem C213_refuted : forall tab pureS pureL mixS mixL calls g g',
  nAssLiq (asg (enter tab calls)) = 1%nat -> stepMass (enter tab calls) <> 0 ->
  mixL (fun j => assL (asg (enter tab calls)) j 0%nat) <> 0 -> g <> g' ->
  assimProp tab pureS pureL mixS mixL g (enter tab calls) <> assimProp tab pureS pureL mixS mixL g' (enter tab calls).
Proof.
  intros tab pureS pureL mixS mixL calls g g' N M X D. unfold assimProp. destruct (Req_EM_T (stepMass (enter tab calls)) 0); [contradiction|].
  cbv zeta. rewrite N. cbn [loop]. intros E. injection E as E. unfold liquidProp in E. cbv zeta in E.
  rewrite !(loop_add_R (nlc tab) (fun j => assL (asg (enter tab calls)) j 0%nat * pureL j)) in E.
  set (x := mixL _) in *. set (t := loop (npc tab) _ 0) in *. set (s := sum _ _) in *. apply D. apply (Rmult_eq_reg_l x); [lra|exact X].
Qed.

(** ** C214: materials that are counted but not there *)
(** an oxide (a number above the liquid's), which the comment on the function offers *)
Theorem C214_refuted_oxide : forall tab ph mass em a q, (npc tab < ph)%nat ->
  stepMass (addAssimilant tab ph mass em a) = stepMass a + mass /\
  assimAmount tab (asg (addAssimilant tab ph mass em a)) q = assimAmount tab (asg a) q.
Proof.
  intros tab ph mass em a q H. unfold addAssimilant. cbv zeta. destruct (Nat.eqb_spec ph (npc tab)); [lia|].
  destruct (Nat.ltb_spec ph (npc tab)); [lia|]. cbn [stepMass asg]. split; reflexivity.
Qed.
(** a solution without percentages *)
Theorem C214_refuted_solution : forall tab ph mass em q, layout tab -> (ph < npc tab)%nat -> isPhase tab ph = true -> (1 < na tab ph)%nat ->
  (forall j, em (S j) = 0) -> let a := enter tab [mkCall ph mass em] in stepMass a = mass /\ assimAmount tab (asg a) q = 0.
Proof.
  intros tab ph mass em q Lay Hp Pp N Z. cbv zeta. unfold enter. cbn [fold_left].
  assert (Q0 : quiet tab (asg clearAll)) by (split; [intros i Hi Pi; right; repeat split|right; split; reflexivity]).
  destruct (add_solid tab Lay (mkCall ph mass em) clearAll q Hp Pp Q0) as (Q & S1 & S2 & M & _).
  cbn [phase grams percent] in *. split; [rewrite M; cbn; ring|]. rewrite (quiet_amount tab _ q Q), S1, S2.
  assert (E1 : solidsOf tab (asg clearAll) q + liquidOf tab (asg clearAll) q = 0).
  { rewrite <- (quiet_amount tab _ q Q0). unfold assimAmount. cbn [clearAll asg nAss nAssLiq]. rewrite sum_0; [cbn; ring|]. intros i _. now destruct (isPhase tab i). }
  assert (E2 : solidIn tab (mkCall ph mass em) q = 0).
  { unfold solidIn. cbn [phase grams percent]. destruct (Nat.eqb_spec (na tab ph) 1); [lia|]. apply sum_0. intros j Hj. rewrite Z. unfold Rdiv. ring. }
  lra.
Qed.
