(** The saturation test: the affinities it reports and the answer it gives. *)
From Coq Require Import Reals List Bool Arith Lia Lra.
From Verif Require Import MassModel MassSpec MassProofs SatModel.
Local Open Scope R_scope.

Section Props.
Variable tab : Tab.
Variable x : SatIn.
Notation endmember := (endmember tab x).
Notation muLiq := (muLiq x).

(** ** Specification *)
(** the liquid lacks a component that end-member c is made of *)
Definition lacking (c : nat) : Prop := exists k, (k < nlc tab)%nat /\ solToLiq tab c k <> 0 /\ amounts x k = 0.
(** the energy gained (if negative) by making one mole of end-member c out of liquid with potentials mu *)
Definition drive (mu : nat -> R) (c : nat) : R := gSol x c - sum (nlc tab) (fun k => solToLiq tab c k * mu k).
(** the number of phases listed before entry i *)
Fixpoint phaseNo (i : nat) : nat := match i with O => O | S m => (phaseNo m + if isPhase tab m then 1 else 0)%nat end.
(** the phases examined: listed, not suppressed, not in and out twice already, and not present *)
Definition examined (i : nat) : Prop :=
  (i < npc tab)%nat /\ isPhase tab i = true /\ included x (phaseNo i) = true /\ (cycles x i < 2)%nat /\ present x i = 0.

(** ** End-members *)
Lemma excess_spec c : forall fuel k mu, (k + fuel)%nat = nlc tab ->
  ((exists k', (k <= k' < nlc tab)%nat /\ solToLiq tab c k' <> 0 /\ amounts x k' = 0) /\ excess tab x c fuel k mu = (0, true)) \/
  (~ (exists k', (k <= k' < nlc tab)%nat /\ solToLiq tab c k' <> 0 /\ amounts x k' = 0) /\
   excess tab x c fuel k mu = (mu - (sum (nlc tab) (fun k' => solToLiq tab c k' * muLiq k') - sum k (fun k' => solToLiq tab c k' * muLiq k')), false)).
Proof.
  induction fuel as [|f IH]; intros k mu E.
  - right. assert (k = nlc tab) by lia. subst k. split; [intros (k' & A & _); lia|]. cbn [excess]. f_equal. ring.
  - cbn [excess]. destruct (Req_EM_T (solToLiq tab c k) 0) as [Z|Z].
    + destruct (IH (S k) mu ltac:(lia)) as [((k' & A & B) & Q)|(N & Q)].
      * left. split; [|exact Q]. exists k'. split; [lia|exact B].
      * right. split.
        { intros (k' & A & B1 & B2). apply N. exists k'. split; [|auto]. destruct (Nat.eq_dec k k') as [->|]; [contradiction|lia]. }
        { rewrite Q. f_equal. cbn [sum]. rewrite Z. ring. }
    + destruct (Req_EM_T (amounts x k) 0) as [A|A].
      * left. split; [|reflexivity]. exists k. split; [lia|auto].
      * destruct (IH (S k) (mu - solToLiq tab c k * muLiq k) ltac:(lia)) as [((k' & A' & B) & Q)|(N & Q)].
        { left. split; [|exact Q]. exists k'. split; [lia|exact B]. }
        { right. split.
          - intros (k' & A' & B1 & B2). apply N. exists k'. split; [|auto]. destruct (Nat.eq_dec k k') as [->|]; [contradiction|lia].
          - rewrite Q. f_equal. cbn [sum]. ring. }
Qed.
Lemma endmember_spec c : (lacking c /\ endmember c = (0, true)) \/ (~ lacking c /\ endmember c = (drive muLiq c, false)).
Proof.
  destruct (excess_spec c (nlc tab) 0 (gSol x c) eq_refl) as [((k & A & B) & Q)|(N & Q)].
  - left. split; [exists k; split; [lia|exact B]|exact Q].
  - right. split; [intros (k & A & B); apply N; exists k; split; [lia|exact B]|].
    unfold SatModel.endmember. rewrite Q. unfold drive. cbn [sum]. f_equal. ring.
Qed.

(** ** The scan *)
Definition value (i : nat) : R :=
  if considered x i (phaseNo i) then
    if Nat.eqb (na tab i) 1 then fst (endmember i)
    else solutionAff x i (fun k => snd (endmember (i + 1 + k))) (fun k => fst (endmember (i + 1 + k))) 0
  else 0.
Lemma considered_examined i : (i < npc tab)%nat -> isPhase tab i = true -> (considered x i (phaseNo i) = true <-> examined i).
Proof.
  intros Hi Hp. unfold considered, examined, CYL. rewrite !andb_true_iff, Nat.ltb_lt.
  destruct (Req_EM_T (present x i) 0) as [E|E]; split; intros H.
  - destruct H as ((? & ?) & _). auto.
  - destruct H as (_ & _ & ? & ? & _). auto.
  - destruct H as (_ & ?). discriminate.
  - destruct H as (_ & _ & _ & _ & ?). contradiction.
Qed.
Lemma phaseNo_skip i m : (forall j, (1 <= j <= m)%nat -> isPhase tab (i + j) = false) -> phaseNo (S (i + m)) = phaseNo (S i).
Proof.
  induction m as [|m IH]; intros H; [now rewrite Nat.add_0_r|].
  replace (S (i + S m)) with (S (S (i + m))) by lia. change (phaseNo (S (S (i + m)))) with (phaseNo (S (i + m)) + if isPhase tab (S (i + m)) then 1 else 0)%nat.
  replace (S (i + m)) with (i + S m)%nat at 2 by lia. rewrite H by lia. rewrite IH by (intros; apply H; lia). lia.
Qed.

Hypothesis Lay : layout tab.
Lemma scan_spec : forall fuel i j r h, (npc tab <= i + fuel)%nat -> j = phaseNo i ->
  let out := scan tab x fuel i j r h in
  (forall i', (i' < i)%nat -> fst out i' = r i') /\
  (forall i', (i <= i' < npc tab)%nat -> isPhase tab i' = true -> fst out i' = value i') /\
  (snd out = true <-> h = true \/ exists i', (i <= i' < npc tab)%nat /\ isPhase tab i' = true /\ value i' < 0).
Proof.
  induction fuel as [|f IH]; intros i j r h Hf Hj out.
  - unfold out. cbn [scan fst snd]. split; [auto|split; [intros; lia|]]. split; [auto|]. intros [|(i' & ? & _)]; [auto|lia].
  - unfold out. clear out. cbn [scan]. destruct (Nat.ltb_spec i (npc tab)) as [Hi|Hi].
    2: { cbn [fst snd]. split; [auto|split; [intros; lia|]]. split; [auto|]. intros [|(i' & ? & _)]; [auto|lia]. }
    cbv zeta. destruct (isPhase tab i) eqn:Ep.
    2: { destruct (IH (S i) j (upd r i 0) h ltac:(lia)) as (A & B & C). { cbn [phaseNo]. rewrite Ep. lia. }
         split; [|split].
         - intros i' H. rewrite A by lia. unfold upd. destruct (Nat.eqb_spec i' i); [lia|reflexivity].
         - intros i' H Hp. apply B; auto. destruct (Nat.eq_dec i i') as [<-|]; [congruence|lia].
         - rewrite C. split; (intros [|(i' & H1 & H2)]; [auto|right; exists i']).
           + split; [lia|exact H2].
           + split; [|exact H2]. destruct (Nat.eq_dec i i') as [<-|]; [destruct H2; congruence|lia]. }
    assert (NO : phaseNo (S i) = S (phaseNo i)) by (cbn [phaseNo]; rewrite Ep; lia).
    destruct (Lay i Hi Ep) as (Na1 & Na2).
    assert (POST : forall i2 r2 h2, (i < i2)%nat -> (npc tab <= i2 + f)%nat -> phaseNo i2 = S (phaseNo i) ->
      (forall i', (i < i' < i2)%nat -> isPhase tab i' = false) ->
      (forall i', (i' < i)%nat -> r2 i' = r i') -> r2 i = value i -> (h2 = true <-> h = true \/ value i < 0) ->
      let out := scan tab x f i2 (S j) r2 h2 in
      (forall i', (i' < i)%nat -> fst out i' = r i') /\
      (forall i', (i <= i' < npc tab)%nat -> isPhase tab i' = true -> fst out i' = value i') /\
      (snd out = true <-> h = true \/ exists i', (i <= i' < npc tab)%nat /\ isPhase tab i' = true /\ value i' < 0)).
    { intros i2 r2 h2 G1 G2 G3 G4 G5 G6 G7 out. destruct (IH i2 (S j) r2 h2 G2 ltac:(lia)) as (A & B & C). fold out in A, B, C.
      split; [|split].
      - intros i' H. rewrite A by lia. now apply G5.
      - intros i' H Hp. destruct (Nat.eq_dec i i') as [<-|N]; [rewrite A by lia; exact G6|].
        apply B; auto. destruct (le_lt_dec i2 i') as [|L]; [lia|]. rewrite (G4 i' ltac:(lia)) in Hp. discriminate.
      - rewrite C, G7. split.
        + intros [[|V]|(i' & H1 & H2)]; [auto|right; exists i; auto|right; exists i'; split; [lia|exact H2]].
        + intros [|(i' & H1 & H2 & H3)]; [auto|]. destruct (Nat.eq_dec i i') as [<-|N]; [auto|]. right. exists i'.
          split; [|auto]. destruct (le_lt_dec i2 i') as [|L]; [lia|]. rewrite (G4 i' ltac:(lia)) in H2. discriminate. }
    destruct (considered x i j) eqn:Ec.
    + destruct (Nat.eqb_spec (na tab i) 1) as [N1|N1].
      * apply POST; try lia.
        { intros i' H. unfold upd. destruct (Nat.eqb_spec i' i); [lia|reflexivity]. }
        { unfold upd, value. rewrite Nat.eqb_refl, <- Hj, Ec, N1. reflexivity. }
        { rewrite orb_true_iff. unfold value. rewrite <- Hj, Ec, N1. cbn [Nat.eqb]. destruct (Rlt_dec (fst (endmember i)) 0); intuition congruence. }
      * destruct (Nat.ltb_spec 1 (na tab i)) as [N2|N2]; [|lia]. destruct (Na2 N2) as (Nb & Nc).
        set (r2 := fun i' => if _ && _ then _ else _).
        assert (V : r2 i = value i).
        { unfold r2, value. rewrite Nat.leb_refl, <- Hj, Ec. replace (i <=? i + na tab i)%nat with true by (symmetry; apply Nat.leb_le; lia).
          cbn [andb]. rewrite Nat.sub_diag. apply Nat.eqb_neq in N1. now rewrite N1. }
        apply POST; try lia.
        { rewrite (phaseNo_skip i (na tab i)) by exact Nc. exact NO. }
        { intros i' H. replace i' with (i + (i' - i))%nat by lia. apply Nc. lia. }
        { intros i' H. unfold r2. replace (i <=? i')%nat with false by (symmetry; apply Nat.leb_gt; lia). cbn [andb].
          unfold upd. destruct (Nat.eqb_spec i' i); [lia|reflexivity]. }
        { exact V. }
        { rewrite orb_true_iff. match goal with |- context [Rlt_dec ?e 0] => change e with (r2 i) end. rewrite V. destruct (Rlt_dec (value i) 0); intuition congruence. }
    + apply POST; try lia.
      { intros i' H. unfold upd. destruct (Nat.eqb_spec i' i); [lia|reflexivity]. }
      { unfold upd, value. rewrite Nat.eqb_refl, <- Hj, Ec. reflexivity. }
      { unfold value. rewrite <- Hj, Ec. intuition lra. }
Qed.

(** ** C131: the affinities reported *)
Theorem C131_pure_phase r0 i : examined i -> na tab i = 1%nat ->
  (lacking i -> fst (fst (evaluateSaturationState tab x r0)) i = 0) /\
  (~ lacking i -> fst (fst (evaluateSaturationState tab x r0)) i = drive muLiq i).
Proof.
  intros E N. pose proof E as (Hi & Hp & _).
  destruct (scan_spec (npc tab) 0 0 r0 false ltac:(lia) eq_refl) as (_ & B & _). specialize (B i ltac:(lia) Hp).
  unfold evaluateSaturationState. destruct (scan tab x (npc tab) 0 0 r0 false) as (r, h). cbn [fst] in *. rewrite B. unfold value.
  rewrite (proj2 (considered_examined i Hi Hp) E), N. cbn [Nat.eqb].
  destruct (endmember_spec i) as [(L & ->)|(L & ->)]; cbn [fst]; split; intros H; auto; contradiction.
Qed.
(** a solution is judged by the same numbers, one for each end-member, and told which cannot be made *)
Theorem C131_solution r0 i : examined i -> (1 < na tab i)%nat ->
  exists (cannot : nat -> bool) (pot : nat -> R),
    fst (fst (evaluateSaturationState tab x r0)) i = solutionAff x i cannot pot 0 /\
    forall k, (cannot k = true <-> lacking (i + 1 + k)) /\ (lacking (i + 1 + k) -> pot k = 0) /\ (~ lacking (i + 1 + k) -> pot k = drive muLiq (i + 1 + k)).
Proof.
  intros E N. pose proof E as (Hi & Hp & _).
  destruct (scan_spec (npc tab) 0 0 r0 false ltac:(lia) eq_refl) as (_ & B & _). specialize (B i ltac:(lia) Hp).
  exists (fun k => snd (endmember (i + 1 + k))), (fun k => fst (endmember (i + 1 + k))). split.
  - unfold evaluateSaturationState. destruct (scan tab x (npc tab) 0 0 r0 false) as (r, h). cbn [fst] in *. rewrite B. unfold value.
    rewrite (proj2 (considered_examined i Hi Hp) E). replace (Nat.eqb (na tab i) 1) with false by (symmetry; apply Nat.eqb_neq; lia). reflexivity.
  - intros k. destruct (endmember_spec (i + 1 + k)) as [(L & ->)|(L & ->)]; cbn [fst snd]; (split; [|split]); try tauto; split; intros; auto; try discriminate; contradiction.
Qed.
Theorem C131_not_examined r0 i : (i < npc tab)%nat -> isPhase tab i = true -> ~ examined i ->
  fst (fst (evaluateSaturationState tab x r0)) i = 0.
Proof.
  intros Hi Hp E.
  destruct (scan_spec (npc tab) 0 0 r0 false ltac:(lia) eq_refl) as (_ & B & _). specialize (B i ltac:(lia) Hp).
  unfold evaluateSaturationState. destruct (scan tab x (npc tab) 0 0 r0 false) as (r, h). cbn [fst] in *. rewrite B. unfold value.
  destruct (considered x i (phaseNo i)) eqn:C; [|reflexivity]. apply (considered_examined i Hi Hp) in C. contradiction.
Qed.

(** ** C132: the answer *)
Theorem C132_answer r0 : let out := evaluateSaturationState tab x r0 in
  snd out = true <->
  (exists i, examined i /\ fst (fst out) i < 0) \/ (liquidThere x = false /\ liquidIncluded x = true /\ snd (fst out) < 0).
Proof.
  intros out. destruct (scan_spec (npc tab) 0 0 r0 false ltac:(lia) eq_refl) as (_ & B & C).
  unfold out, evaluateSaturationState. destruct (scan tab x (npc tab) 0 0 r0 false) as (r, h). cbn [fst snd] in *.
  rewrite orb_true_iff, C. split.
  - intros [[H|(i & Hi & Hp & V)]|H]; [discriminate| |].
    + left. exists i. rewrite B by auto. split; [|exact V]. apply (considered_examined i ltac:(lia) Hp).
      unfold value in V. destruct (considered x i (phaseNo i)); [reflexivity|lra].
    + right. destruct (Rlt_dec (liquidTest x) 0) as [L|]; [|discriminate].
      split; [|split; [|exact L]]; unfold liquidTest in L; destruct (liquidThere x), (liquidIncluded x); cbn [negb andb] in L; try reflexivity; lra.
  - intros [(i & E & V)|(A & D & L)].
    + left. right. pose proof E as (Hi & Hp & _). exists i. rewrite <- B by (auto; lia). split; [lia|auto].
    + right. destruct (Rlt_dec (liquidTest x) 0); [reflexivity|contradiction].
Qed.
(** nothing that may form: never supersaturated *)
Theorem C132_all_suppressed r0 : (forall j, included x j = false) -> liquidThere x = true \/ liquidIncluded x = false ->
  snd (evaluateSaturationState tab x r0) = false.
Proof.
  intros A L. destruct (snd (evaluateSaturationState tab x r0)) eqn:E; [|reflexivity]. exfalso.
  apply (C132_answer r0) in E. destruct E as [(i & (_ & _ & I & _) & _)|(I & J & _)].
  - rewrite A in I. discriminate.
  - destruct L; congruence.
Qed.
End Props.

(** ** C132, continued: suppressing other phases changes nothing for a phase *)
Theorem C132_independent tab x y r0 r1 i : layout tab -> examined tab x i -> examined tab y i -> na tab i = 1%nat ->
  (forall c, gSol x c = gSol y c) -> (forall k, amounts x k = amounts y k) -> (forall k, muLiq x k = muLiq y k) ->
  fst (fst (evaluateSaturationState tab x r0)) i = fst (fst (evaluateSaturationState tab y r1)) i.
Proof.
  intros L Ex Ey N G A M. destruct (C131_pure_phase tab x L r0 i Ex N) as (X1 & X2). destruct (C131_pure_phase tab y L r1 i Ey N) as (Y1 & Y2).
  destruct (endmember_spec tab x i) as [(K & _)|(K & _)].
  - rewrite X1, Y1; auto. destruct K as (k & ? & ? & Z). exists k. now rewrite <- A.
  - rewrite X2, Y2; auto.
    + unfold drive. rewrite G. f_equal. apply sum_ext. intros. now rewrite M.
    + intros (k & ? & ? & Z). apply K. exists k. now rewrite A.
Qed.

(** ** C133: on a buffer, the oxygen potential of the buffer decides *)
(** in the potentials used, 4 Fe2SiO4 + 2 O2 = 4 Fe2O3 + 4 SiO2 is at equilibrium with oxygen at the buffer *)
Theorem C133_equilibrium x : liquidThere x = true -> onBuffer x = true -> silicaAtoms x <> 0 ->
  muLiq x 0 / silicaAtoms x + muLiq x 3 - muLiq x 5 = muO2 x / 2.
Proof. intros A B S. unfold muLiq. rewrite A, B. cbn [andb]. cbv zeta. unfold upd. cbn [Nat.eqb]. field. exact S. Qed.
(** all other potentials are those of the liquid *)
Theorem C133_others x k : k <> 3%nat -> muLiq x k = muRaw x k.
Proof. intros N. unfold muLiq. destruct (liquidThere x && onBuffer x); [|reflexivity]. cbv zeta. unfold upd. apply Nat.eqb_neq in N. now rewrite N. Qed.
Theorem C133_no_buffer x k : onBuffer x = false -> muLiq x k = muRaw x k.
Proof. intros N. unfold muLiq. rewrite N, andb_false_r. reflexivity. Qed.
(** so ferric end-members are judged as if made from the ferrous component and buffer oxygen *)
Theorem C133_ferric tab x c : (5 < nlc tab)%nat -> liquidThere x = true -> onBuffer x = true -> silicaAtoms x <> 0 ->
  drive tab x (muLiq x) c =
  gSol x c - sum (nlc tab) (fun k => solToLiq tab c k * (if Nat.eqb k 3 then muRaw x 5%nat + muO2 x / 2 - muRaw x 0%nat / silicaAtoms x else muRaw x k)).
Proof.
  intros N A B S. unfold drive. f_equal. apply sum_ext. intros k Hk. f_equal. destruct (Nat.eqb_spec k 3) as [->|E].
  - pose proof (C133_equilibrium x A B S) as Q. rewrite (C133_others x 0), (C133_others x 5) in Q by lia. lra.
  - now apply C133_others.
Qed.

(** ** A case: quartz-like phase 0 is supersaturated, a solution (entries 1 to 3) is suppressed, hematite-like phase 4 needs a
    component the liquid lacks *)
Definition caseTab : Tab :=
  mkTab 6 5 0 (fun i => match i with 0 | 1 | 4 => true | _ => false end%nat) (fun i => match i with 1 => 2 | _ => 1 end%nat)
    (fun c k => match c, k with 0%nat, 0%nat => 1 | 4%nat, 3%nat => 1 | 2%nat, 5%nat => 1 | 3%nat, 0%nat => 1 | _, _ => 0 end)
    (fun _ _ => 0) (fun _ _ => 0) (fun _ _ => 0) (fun _ => 0) (fun _ => 0) (fun _ => 0) (fun _ => 0) (fun _ => false).
Definition caseIn : SatIn :=
  mkSatIn true true 1 (-2) (fun k => INR k) (fun k => if Nat.eqb k 3 then 0 else 1) (fun c => -1) (fun _ => 0)
    (fun j => negb (Nat.eqb j 1)) true (fun _ => O) (fun _ => 0) (fun _ _ _ _ => 0) (fun _ _ => 0).
Lemma case_layout : layout caseTab.
Proof.
  intros i Hi Hp. cbn [caseTab npc isPhase na] in *.
  do 5 (destruct i as [|i]; [first [discriminate|split; [lia|intros; first [lia|split; [lia|intros j Hj; destruct j as [|[|[|j]]]; try reflexivity; lia]]]]|]). lia.
Qed.
Theorem C132_case : layout caseTab /\ examined caseTab caseIn 0 /\ examined caseTab caseIn 4 /\ ~ examined caseTab caseIn 1 /\
  lacking caseTab caseIn 4 /\ ~ lacking caseTab caseIn 0 /\
  fst (fst (evaluateSaturationState caseTab caseIn (fun _ => 7))) 0%nat = -1 /\
  fst (fst (evaluateSaturationState caseTab caseIn (fun _ => 7))) 4%nat = 0 /\
  snd (evaluateSaturationState caseTab caseIn (fun _ => 7)) = true /\
  muLiq caseIn 3 = 4.
Proof.
  assert (L := case_layout).
  assert (E0 : examined caseTab caseIn 0) by (unfold examined; cbn; repeat split; lia).
  assert (E4 : examined caseTab caseIn 4) by (unfold examined; cbn; repeat split; lia).
  assert (L4 : lacking caseTab caseIn 4) by (exists 3%nat; cbn; repeat split; [lia|lra]).
  assert (L0 : ~ lacking caseTab caseIn 0).
  { intros (k & _ & N & Z). cbn in N, Z. destruct k as [|k]; [cbn in Z; lra|]. lra. }
  assert (A0 : fst (fst (evaluateSaturationState caseTab caseIn (fun _ => 7))) 0%nat = -1).
  { rewrite (proj2 (C131_pure_phase caseTab caseIn L _ 0%nat E0 eq_refl) L0). unfold drive, muLiq, caseIn, caseTab, upd. cbn. lra. }
  split; [exact L|split; [exact E0|split; [exact E4|split; [|split; [exact L4|split; [exact L0|split; [exact A0|split; [|split]]]]]]]].
  - intros (_ & _ & H & _). cbn in H. discriminate.
  - exact (proj1 (C131_pure_phase caseTab caseIn L _ 4%nat E4 eq_refl) L4).
  - apply (C132_answer caseTab caseIn L). left. exists 0%nat. split; [exact E0|]. rewrite A0. lra.
  - unfold muLiq, caseIn, upd. cbn. lra.
Qed.
