(** C36: the composition supplied to the library is the one in the phases. *)
From Coq Require Import Reals List Lia Lra Bool Arith.
From Verif Require Import MassModel MassSpec MassProofs MassOps MassDrop MassSolve MassFrac MassProps SupplyModel.
Open Scope R_scope.

(** ** Specification *)

(** Grams of oxide o in the phases that count as present: all solids, and the
    liquids when the liquid mass is not 0. *)
Definition gramsPresent (tab : Tab) (n : Node) (o : nat) : R :=
  (inSolids tab (oxide tab o) (matter n) +
   (if Req_EM_T (liquidMass n) 0 then 0 else inLiquids tab (oxide tab o) (matter n))) * omw tab o.
Definition holds (tab : Tab) (comp : nat -> R) (n : Node) : Prop :=
  forall o, (o < nc tab)%nat -> gramsPresent tab n o = comp o.

(** A node between calls: its phases add up to its bulk, and a node whose bulk
    is all 0 holds no solids (as after creation). *)
Definition settled (tab : Tab) (s : St) : Prop :=
  balanced tab s /\ counts tab s /\ (0 < nLiq s)%nat /\
  ((forall o, (o < nc tab)%nat -> bulk s o = 0) -> nLiq s = 1%nat /\ forall i, nSol s i = O).

(** The moves of an equilibration without oxygen buffer, fractionation or
    assimilation, while there is a liquid. *)
Section Equilibration.
Variable tab : Tab.
Variable corr : Corr.
Variable phaseTest : nat -> (nat -> R) -> bool.
Variable redox : (nat -> R) -> nat -> R.
Inductive move (s : St) : St -> Prop :=
| mv_add testLiq index mSol s' : newPhase tab s index ->
    addSolidWithLiquid tab testLiq index mSol s = Some s' -> move s (redoxAll tab redox s')
| mv_second_liquid m : move s (addSecondLiquid tab m s)
| mv_second_solid index m x : (index < npc tab)%nat -> isPhase tab index = true -> (1 < na tab index)%nat ->
    (0 < nSol s index)%nat -> move s (addSecondSolid tab index m x s)
| mv_drop_solids : move s (dropSolids tab corr phaseTest redox s)
| mv_drop_liquids : (nLiq s <= 2)%nat -> move s (dropLiquids tab redox s).
Inductive moves : St -> St -> Prop :=
| moves_0 s : moves s s
| moves_S s t u : moves s t -> move t u -> moves s u.
End Equilibration.

(** ** Proofs *)
Section P.
Variable tab : Tab.
Hypothesis Inv : invertible tab.
Hypothesis Mw : forall o, (o < nc tab)%nat -> omw tab o <> 0.

Lemma anyNonzero_false n f : anyNonzero n f = false <-> forall o, (o < n)%nat -> f o = 0.
Proof.
  induction n as [|n IH]; cbn; [split; [lia|auto]|].
  destruct (Req_EM_T (f n) 0) as [E|N].
  - rewrite IH. split; intros A o Ho; [|apply A; lia].
    destruct (Nat.eq_dec o n) as [->|]; auto. apply A. lia.
  - split; [discriminate|]. intros A. exfalso. apply N, A. lia.
Qed.

Lemma inLiquids_update s a q : (0 < nLiq s)%nat ->
  inLiquids tab q (addLiq tab 0 a s) = inLiquids tab q s + sum (nlc tab) (fun j => perLiq q j * a j).
Proof.
  intros L. unfold inLiquids. cbn [nLiq addLiq setLiqC].
  destruct (nLiq s) as [|k]; [lia|]. clear L.
  induction k as [|k IH].
  - cbn [sum]. unfold inLiquid. cbn [liqC addLiq setLiqC Nat.eqb andb].
    rewrite (sum_ext (nlc tab) (fun j => perLiq q j * (if Nat.ltb j (nlc tab) then liqC s 0 j + a j else liqC s 0 j))
      (fun j => perLiq q j * liqC s 0 j + perLiq q j * a j)).
    + rewrite sum_plus. ring.
    + intros j Hj. destruct (Nat.ltb_spec j (nlc tab)); [ring|lia].
  - change (sum (S (S k)) ?f) with (sum (S k) f + f (S k)). rewrite IH.
    change (inLiquid tab q (addLiq tab 0 a s) (S k)) with (inLiquid tab q s (S k)). ring.
Qed.

Lemma supplyUpdate_amount comp n o : (0 < nLiq (matter n))%nat -> balanced tab (matter n) -> (o < nc tab)%nat ->
  amount tab (oxide tab o) (matter (supplyUpdate tab comp n)) = comp o / omw tab o /\
  bulk (matter (supplyUpdate tab comp n)) o = comp o / omw tab o.
Proof.
  intros L B Ho. unfold supplyUpdate. cbv zeta. cbn [matter]. split.
  - unfold amount. set (s1 := setOxy _ _).
    change (inSolids tab (oxide tab o) (addLiq tab 0 ?a s1)) with (inSolids tab (oxide tab o) (matter n)).
    rewrite inLiquids_update by exact L.
    change (inLiquids tab (oxide tab o) s1) with (inLiquids tab (oxide tab o) (matter n)).
    pose proof (B o Ho) as E. unfold amount in E.
    cbn [perLiq oxide].
    rewrite (sum_ext (nlc tab) _ (fun j => sum (nc tab) (fun o' => (comp o' / omw tab o' - bulk (matter n) o') * oxToLiq tab o' j) * liqToOx tab j o))
      by (intros; ring).
    rewrite (Inv (fun o' => comp o' / omw tab o' - bulk (matter n) o') o Ho). lra.
  - cbn [bulk addLiq setLiqC setOxy]. rewrite addBulk_at by auto. ring.
Qed.

Lemma inSolids_none q s : (forall i, nSol s i = O) -> inSolids tab q s = 0.
Proof.
  intros N. unfold inSolids. apply sum_0. intros i Hi. rewrite N. cbn. now destruct (isPhase tab i).
Qed.

Lemma supplyFresh_frame comp n : nSol (matter (supplyFresh tab comp n)) = nSol (matter n) /\
  nLiq (matter (supplyFresh tab comp n)) = nLiq (matter n) /\ fo2On (matter (supplyFresh tab comp n)) = fo2On (matter n) /\
  solC (matter (supplyFresh tab comp n)) = solC (matter n) /\
  (forall o, (o < nc tab)%nat -> bulk (matter (supplyFresh tab comp n)) o = comp o / omw tab o).
Proof.
  unfold supplyFresh. cbv zeta. destruct (nlc tab) eqn:E; do 4 (split; [reflexivity|]);
  intros o Ho; cbn [matter bulk putLiq setLiqC setOxy setBulk];
  destruct (Nat.ltb_spec o (nc tab)); [reflexivity|lia|reflexivity|lia].
Qed.

Lemma supplyFresh_amount comp n o : nLiq (matter n) = 1%nat -> (forall i, nSol (matter n) i = O) -> (o < nc tab)%nat ->
  amount tab (oxide tab o) (matter (supplyFresh tab comp n)) = comp o / omw tab o.
Proof.
  intros L N Ho. unfold amount.
  destruct (supplyFresh_frame comp n) as (Fs & Fl & _ & _ & Fb).
  rewrite inSolids_none by (rewrite Fs; exact N).
  unfold inLiquids. rewrite Fl, L. cbn [sum]. unfold inLiquid. cbn [perLiq oxide].
  rewrite (sum_ext (nlc tab) _ (fun j => sum (nc tab) (fun o' => comp o' / omw tab o' * oxToLiq tab o' j) * liqToOx tab j o)).
  - rewrite (Inv (fun o' => comp o' / omw tab o') o Ho). ring.
  - intros j Hj. rewrite Rmult_comm. f_equal. unfold supplyFresh. cbv zeta.
    destruct (nlc tab) eqn:En; [lia|].
    cbn [matter liqC putLiq setLiqC Nat.eqb andb]. rewrite En. destruct (Nat.ltb_spec j (S n0)); [|lia].
    apply sum_ext. intros o' Ho'. cbn [bulk setOxy setBulk]. destruct (Nat.ltb_spec o' (nc tab)); [reflexivity|lia].
Qed.

(** What the equilibration starts from. *)
Definition start (comp : nat -> R) (n : Node) : St := matter (processSupply tab comp n).

Lemma processSupply_spec comp n : settled tab (matter n) ->
  let n' := processSupply tab comp n in
  (forall o, (o < nc tab)%nat -> amount tab (oxide tab o) (matter n') = comp o / omw tab o /\ bulk (matter n') o = comp o / omw tab o) /\
  counts tab (matter n') /\ (0 < nLiq (matter n'))%nat /\ fo2On (matter n') = fo2On (matter n) /\
  hasLiquid (matter n') = (if Req_EM_T (liquidMass n') 0 then false else true).
Proof.
  intros (B & Cn & L & Z). cbv zeta. unfold processSupply, isUpdate.
  destruct (anyNonzero (nc tab) (bulk (matter n))) eqn:U.
  - split; [|split; [|split; [|split]]].
    + intros o Ho. exact (supplyUpdate_amount comp n o L B Ho).
    + exact Cn.
    + exact L.
    + reflexivity.
    + reflexivity.
  - destruct (Z (proj1 (anyNonzero_false _ _) U)) as [L1 Z'].
    destruct (supplyFresh_frame comp n) as (Fs & Fl & Ff & _ & Fb).
    split; [|split; [|split; [|split]]].
    + intros o Ho. split; [exact (supplyFresh_amount comp n o L1 Z' Ho)|exact (Fb o Ho)].
    + unfold counts, enter. cbn [matter nSol setHas]. rewrite Fs. exact Cn.
    + unfold enter. cbn [matter nLiq setHas]. rewrite Fl. exact L.
    + exact Ff.
    + reflexivity.
Qed.

Lemma holds_amount comp n : liquidMass n <> 0 ->
  (forall o, (o < nc tab)%nat -> amount tab (oxide tab o) (matter n) = comp o / omw tab o) -> holds tab comp n.
Proof.
  intros Lm A o Ho. unfold gramsPresent. destruct (Req_EM_T (liquidMass n) 0); [contradiction|].
  specialize (A o Ho). unfold amount in A. rewrite A. field. auto.
Qed.
End P.

(** ** C36, the part that holds: at the start of the equilibration the phases
    hold exactly the grams supplied, for a new node and for one used before,
    provided the liquid mass does not come out as 0. *)
Theorem C36_supplied_partial : forall tab comp n,
  invertible tab -> (forall o, (o < nc tab)%nat -> omw tab o <> 0) ->
  settled tab (matter n) ->
  let n' := processSupply tab comp n in
  liquidMass n' <> 0 ->
  holds tab comp n' /\ balanced tab (matter n') /\
  (forall o, (o < nc tab)%nat -> bulk (matter n') o * omw tab o = comp o).
Proof.
  intros tab comp n Inv Mw St. cbv zeta. intros Lm.
  destruct (processSupply_spec tab Inv comp n St) as (A & _).
  split; [|split].
  - apply holds_amount; auto. intros o Ho. now apply A.
  - intros o Ho. destruct (A o Ho) as [-> ->]. reflexivity.
  - intros o Ho. destruct (A o Ho) as [_ ->]. field. auto.
Qed.
(** the same as a property of its own (C107) *)
Theorem C107_supplied : forall tab comp n,
  invertible tab -> (forall o, (o < nc tab)%nat -> omw tab o <> 0) ->
  settled tab (matter n) ->
  let n' := processSupply tab comp n in
  liquidMass n' <> 0 ->
  holds tab comp n' /\ balanced tab (matter n') /\
  (forall o, (o < nc tab)%nat -> bulk (matter n') o * omw tab o = comp o).
Proof. exact C36_supplied_partial. Qed.

Lemma moves_spec tab corr phaseTest redox s s' :
  layout tab -> invertible tab -> (forall o, (o < nc tab)%nat -> agrees tab (oxide tab o)) ->
  moves tab corr phaseTest redox s s' -> wf tab s -> fo2On s = false ->
  wf tab s' /\ fo2On s' = false /\ (forall o, (o < nc tab)%nat -> bulk s' o = bulk s o) /\
  (forall o, (o < nc tab)%nat -> amount tab (oxide tab o) s' = amount tab (oxide tab o) s).
Proof.
  intros Lay Inv Agr M W F0. induction M as [s|s t u M IH Mv]; [auto|].
  destruct (IH W F0) as (W1 & F1 & B1 & A1).
  assert (St : step tab corr phaseTest redox t u) by (destruct Mv; econstructor; eauto).
  pose proof (step_wf tab corr phaseTest redox Lay Agr Inv t u W1 St) as W2.
  pose proof W1 as (Cn & HL & NL).
  assert (G : fo2On u = false /\ forall o, (o < nc tab)%nat -> bulk u o = bulk t o).
  { destruct Mv as [testLiq index mSol s' Np E|m|index m x Hi Pi N Ps| |N2].
    - destruct (C41_add_solid tab testLiq index mSol t s' Lay Np NL E) as ((_ & _ & B) & _).
      assert (F : fo2On s' = fo2On t).
      { unfold addSolidWithLiquid in E. destruct (trial 64 _ MASSIN); [|discriminate]. injection E as <-.
        unfold placeSolid. destruct (Nat.eqb (na tab index) 1); [reflexivity|].
        cbn [fo2On setNSol].
        match goal with |- fo2On (loop ?n ?f ?x) = _ => assert (Q : forall k, fo2On (loop k f x) = fo2On x) by (induction k; auto) end.
        rewrite Q. reflexivity. }
      unfold redoxAll. rewrite F, F1. cbn [andb]. rewrite F, F1. split; auto. intros; now rewrite B.
    - split; [exact F1|reflexivity].
    - split; [|intros; now rewrite addSecondSolid_bulk]. rewrite <- F1. unfold addSecondSolid. cbv zeta.
      match goal with |- fo2On (loop ?n ?f ?x) = _ => assert (Q : forall k, fo2On (loop k f x) = fo2On x) end.
      { induction k; [reflexivity|]. rewrite loop_S, <- IHk. set (v := loop k _ _). cbv beta zeta.
        cbn [hasLiquid setSol setSolC]. destruct (hasLiquid v); reflexivity. }
      rewrite Q. cbn [hasLiquid setSol setSolC setNSol]. destruct (hasLiquid t); reflexivity.
    - destruct (C42_drop_solids tab corr phaseTest redox t Lay Cn HL NL F1) as (_ & A & D).
      split; [rewrite <- F1; apply D|]. intros o Ho.
      pose proof (step_imbalance tab corr phaseTest redox Lay Agr Inv t _ o W1 St Ho) as E.
      rewrite (A Agr o Ho) in E. lra.
    - destruct (C42_drop_liquids tab redox t Lay ltac:(lia)) as (_ & _ & _ & F & B & _).
      split; [now rewrite F|]. intros o Ho. now rewrite (proj1 (B F1)). }
  destruct G as [F2 B2]. split; [exact W2|]. split; [exact F2|]. split; [intros o Ho; now rewrite (B2 o Ho), (B1 o Ho)|].
  intros o Ho. pose proof (step_imbalance tab corr phaseTest redox Lay Agr Inv t u o W1 St Ho) as E.
  rewrite (B2 o Ho), (A1 o Ho) in E. lra.
Qed.

(** The same after the equilibration: whatever phases are added and dropped,
    the phases hold the grams supplied. *)
Theorem C36_equilibrated_partial : forall tab corr phaseTest redox comp n s',
  layout tab -> invertible tab -> (forall o, (o < nc tab)%nat -> agrees tab (oxide tab o)) ->
  (forall o, (o < nc tab)%nat -> omw tab o <> 0) ->
  settled tab (matter n) -> fo2On (matter n) = false ->
  let n' := processSupply tab comp n in
  liquidMass n' <> 0 ->
  moves tab corr phaseTest redox (matter n') s' ->
  forall o, (o < nc tab)%nat -> amount tab (oxide tab o) s' * omw tab o = comp o.
Proof.
  intros tab corr phaseTest redox comp n s' Lay Inv Agr Mw St F0. cbv zeta. intros Lm M o Ho.
  destruct (processSupply_spec tab Inv comp n St) as (A & Cn & NL & F & HL).
  destruct (moves_spec tab corr phaseTest redox _ s' Lay Inv Agr M) as (_ & _ & _ & Am).
  - unfold wf. split; [exact Cn|]. split; [|exact NL]. rewrite HL. destruct (Req_EM_T _ 0); [contradiction|reflexivity].
  - congruence.
  - rewrite (Am o Ho). destruct (A o Ho) as [-> _]. field. auto.
Qed.
(** the same as a property of its own (C107) *)
Theorem C107_equilibrated : forall tab corr phaseTest redox comp n s',
  layout tab -> invertible tab -> (forall o, (o < nc tab)%nat -> agrees tab (oxide tab o)) ->
  (forall o, (o < nc tab)%nat -> omw tab o <> 0) ->
  settled tab (matter n) -> fo2On (matter n) = false ->
  let n' := processSupply tab comp n in
  liquidMass n' <> 0 ->
  moves tab corr phaseTest redox (matter n') s' ->
  forall o, (o < nc tab)%nat -> amount tab (oxide tab o) s' * omw tab o = comp o.
Proof. exact C36_equilibrated_partial. Qed.

(** Call after call on the same node: the last composition supplied counts,
    however often the node was used before. Between calls the node may have
    been equilibrated in any way that keeps it settled. *)
Inductive used (tab : Tab) : Node -> Prop :=
| used_new n : (forall o, (o < nc tab)%nat -> bulk (matter n) o = 0) -> counts tab (matter n) ->
    nLiq (matter n) = 1%nat -> (forall i, nSol (matter n) i = O) ->
    (forall j, (j < nlc tab)%nat -> liqC (matter n) 0 j = 0) -> used tab n
| used_call n comp corr phaseTest redox s' lm : used tab n -> fo2On (matter n) = false ->
    (exists o, (o < nc tab)%nat /\ comp o <> 0) ->
    liquidMass (processSupply tab comp n) <> 0 ->
    moves tab corr phaseTest redox (matter (processSupply tab comp n)) s' ->
    used tab (mkNode s' lm).

Lemma used_settled tab n : layout tab -> invertible tab -> (forall o, (o < nc tab)%nat -> agrees tab (oxide tab o)) ->
  (forall o, (o < nc tab)%nat -> omw tab o <> 0) -> used tab n -> settled tab (matter n).
Proof.
  intros Lay Inv Agr Mw U. induction U as [n Z Cn L N Zl|n comp corr phaseTest redox s' lm U IH F0 (o & Ho & No) Lm M].
  - split; [|split; [|split]]; auto; [|lia].
    intros o Ho. rewrite (Z o Ho). unfold amount. rewrite inSolids_none by auto.
    unfold inLiquids. rewrite L. cbn [sum]. unfold inLiquid. cbn [perLiq oxide].
    rewrite sum_0; [ring|]. intros j Hj. rewrite (Zl j Hj). ring.
  - destruct (processSupply_spec tab Inv comp n IH) as (A & Cn & NL & F & HL).
    destruct (moves_spec tab corr phaseTest redox _ s' Lay Inv Agr M) as (W & F' & B & Am).
    + unfold wf. split; [exact Cn|]. split; [|exact NL]. rewrite HL. destruct (Req_EM_T _ 0); [contradiction|reflexivity].
    + congruence.
    + destruct W as (Cn' & HL' & NL'). split; [|split; [|split]]; auto.
      * intros o' Ho'. cbn [matter]. rewrite (B o' Ho'), (Am o' Ho'). destruct (A o' Ho') as [-> ->]. reflexivity.
      * intros Z. exfalso. specialize (Z o Ho). cbn [matter] in Z. rewrite (B o Ho) in Z.
        destruct (A o Ho) as [_ E]. rewrite E in Z. apply No.
        rewrite <- (Rmult_1_r (comp o)), <- (Rinv_l (omw tab o)) by auto.
        unfold Rdiv in Z. rewrite <- Rmult_assoc, Z. ring.
Qed.

Theorem C36_every_call_partial : forall tab, layout tab -> invertible tab ->
  (forall o, (o < nc tab)%nat -> agrees tab (oxide tab o)) -> (forall o, (o < nc tab)%nat -> omw tab o <> 0) ->
  forall n comp corr phaseTest redox s', used tab n -> fo2On (matter n) = false ->
  liquidMass (processSupply tab comp n) <> 0 ->
  moves tab corr phaseTest redox (matter (processSupply tab comp n)) s' ->
  forall o, (o < nc tab)%nat -> amount tab (oxide tab o) s' * omw tab o = comp o.
Proof.
  intros tab Lay Inv Agr Mw n comp corr phaseTest redox s' U F0 Lm M o Ho.
  apply (C36_equilibrated_partial tab corr phaseTest redox comp n s'); auto. now apply used_settled.
Qed.
(** the same as a property of its own (C107) *)
Theorem C107_every_call : forall tab, layout tab -> invertible tab ->
  (forall o, (o < nc tab)%nat -> agrees tab (oxide tab o)) -> (forall o, (o < nc tab)%nat -> omw tab o <> 0) ->
  forall n comp corr phaseTest redox s', used tab n -> fo2On (matter n) = false ->
  liquidMass (processSupply tab comp n) <> 0 ->
  moves tab corr phaseTest redox (matter (processSupply tab comp n)) s' ->
  forall o, (o < nc tab)%nat -> amount tab (oxide tab o) s' * omw tab o = comp o.
Proof. exact C36_every_call_partial. Qed.

(** ** C36 as stated is false *)

(** One oxide, one liquid component, one pure solid, all of molar mass 1. *)
Definition tiny : Tab := mkTab 1 1 1 (fun i => Nat.eqb i 0) (fun _ => 1%nat) (fun _ _ => 1) (fun _ _ => 1)
  (fun _ _ => 1) (fun _ _ => 1) (fun _ => 1) (fun _ => 1) (fun _ => 0) (fun _ => 0) (fun _ => false).
(** x moles of liquid (if [has]) and y moles of solid *)
Definition tinyNode (has : bool) (x y : R) : Node :=
  mkNode (mkSt has 1 (fun nl j => if Nat.eqb nl 0 && Nat.eqb j 0 then x else 0)
            (fun i => if Nat.eqb i 0 then 1%nat else O)
            (fun i ns => if Nat.eqb i 0 && Nat.eqb ns 0 then y else 0)
            (fun o => if Nat.eqb o 0 then x + y else 0) (fun _ _ => 0) (fun _ => 0) 0 0 false) (if has then x else 0).

Lemma tinyNode_settled has x y : x + y <> 0 -> settled tiny (matter (tinyNode has x y)).
Proof.
  intros N. split; [|split; [|split]].
  - intros o Ho. cbn in Ho. assert (o = 0)%nat by lia. subst. unfold amount, inSolids, inLiquids, inLiquid, solidAmount. cbn. ring.
  - split; [|split]; intros i; cbn; [now destruct (Nat.eqb i 0)|now destruct (Nat.eqb i 0); auto|].
    destruct (Nat.eqb_spec i 0); [lia|auto].
  - cbn. lia.
  - intros Z. exfalso. apply N. specialize (Z 0%nat). cbn in Z. apply Z. lia.
Qed.

(** A saturation call whose composition the liquid alone cannot supply takes
    the whole composition as liquid and leaves the solids in place; the next
    process call, with the same composition, keeps the surplus. *)
Theorem C36_refuted_after_saturation_call :
  let n := tinyNode true 1 1 in
  let comp := fun _ : nat => / 2 in
  let n1 := saturationSupply tiny comp n in
  let n2 := processSupply tiny comp n1 in
  settled tiny (matter n) /\ liquidMass n2 <> 0 /\
  amount tiny (oxide tiny 0) (matter n2) * omw tiny 0 = comp 0%nat + 1.
Proof.
  cbv zeta. split; [apply tinyNode_settled; lra|].
  unfold saturationSupply, isUpdate. cbn [tiny nc anyNonzero].
  destruct (Req_EM_T (bulk (matter (tinyNode true 1 1)) 0%nat) 0) as [E|_]; [cbn in E; lra|].
  set (u := supplyUpdate tiny (fun _ => / 2) (tinyNode true 1 1)).
  assert (T : anyBelow 1 (tooSmall tiny (matter u)) = true).
  { cbn [anyBelow orb]. unfold tooSmall. cbn.
    destruct (Req_EM_T _ 0) as [E|_]; [exfalso; lra|].
    destruct (Rlt_dec _ MASSOUT); [reflexivity|].
    destruct (Req_EM_T 1 0); [lra|]. destruct (Rle_dec _ 0) as [|G]; [reflexivity|]. exfalso. apply G. lra. }
  rewrite T. clear T.
  set (f := supplyFresh tiny (fun _ => / 2) u).
  unfold processSupply, isUpdate. cbn [tiny nc anyNonzero].
  destruct (Req_EM_T (bulk (matter f) 0%nat) 0) as [E|_].
  { exfalso. unfold f, supplyFresh in E. cbn in E. lra. }
  split.
  - unfold enter. cbn [liquidMass]. unfold supplyUpdate, f, supplyFresh. cbn. lra.
  - unfold enter. cbn [matter]. unfold amount, inSolids, inLiquids, inLiquid, solidAmount.
    unfold supplyUpdate, f, supplyFresh, u. cbn. lra.
Qed.

(** Two oxides exchanging without change of mass in a system without liquid:
    the change is put into a liquid of mass 0, which is then ignored. *)
Definition tiny2 : Tab := mkTab 2 2 2 (fun i => Nat.ltb i 2) (fun _ => 1%nat)
  (fun c j => if Nat.eqb c j then 1 else 0) (fun c o => if Nat.eqb c o then 1 else 0)
  (fun j o => if Nat.eqb j o then 1 else 0) (fun o j => if Nat.eqb o j then 1 else 0)
  (fun _ => 1) (fun _ => 1) (fun _ => 0) (fun _ => 0) (fun _ => false).
Definition solidNode : Node :=
  mkNode (mkSt false 1 (fun _ _ => 0) (fun i => if Nat.ltb i 2 then 1%nat else O)
            (fun i ns => if Nat.ltb i 2 && Nat.eqb ns 0 then 1 else 0)
            (fun o => if Nat.ltb o 2 then 1 else 0) (fun _ _ => 0) (fun _ => 0) 0 0 false) 0.
Theorem C36_refuted_without_liquid :
  let comp := fun o : nat => if Nat.eqb o 0 then 3 / 2 else 1 / 2 in
  let n' := processSupply tiny2 comp solidNode in
  settled tiny2 (matter solidNode) /\ gramsPresent tiny2 n' 0 = 1 /\ comp 0%nat = 3 / 2.
Proof.
  cbv zeta. split; [|split; [|reflexivity]].
  - split; [|split; [|split]].
    + intros o Ho. cbn in Ho. destruct o as [|[|o]]; [| |lia]; unfold amount, inSolids, inLiquids, inLiquid, solidAmount; cbn; ring.
    + split; [|split]; intros i; cbn.
      * destruct i as [|[|i]]; cbn; auto; discriminate.
      * destruct i as [|[|i]]; cbn; auto.
      * destruct i as [|[|i]]; cbn; auto; lia.
    + cbn. lia.
    + intros Z. specialize (Z 0%nat). cbn in Z. specialize (Z ltac:(lia)). lra.
  - unfold processSupply, isUpdate. cbn [tiny2 nc anyNonzero].
    destruct (Req_EM_T (bulk (matter solidNode) 1%nat) 0) as [E|_]; [cbn in E; lra|].
    unfold gramsPresent, enter. cbn [matter liquidMass].
    destruct (Req_EM_T _ 0) as [_|N].
    + unfold inSolids, solidAmount, supplyUpdate. cbn. ring.
    + exfalso. apply N. unfold supplyUpdate. cbn. lra.
Qed.

(** A case meeting the hypotheses: two moles of liquid and solid, then four
    grams supplied. *)
Theorem C36_case :
  settled tiny (matter (tinyNode true 1 1)) /\ invertible tiny /\
  liquidMass (processSupply tiny (fun _ => 4) (tinyNode true 1 1)) = 3 /\
  holds tiny (fun _ => 4) (processSupply tiny (fun _ => 4) (tinyNode true 1 1)).
Proof.
  assert (Iv : invertible tiny) by (intros m o Ho; cbn in *; replace o with 0%nat by lia; ring).
  assert (Lm : liquidMass (processSupply tiny (fun _ => 4) (tinyNode true 1 1)) = 3).
  { unfold processSupply, isUpdate. cbn [tiny nc anyNonzero].
    destruct (Req_EM_T (bulk (matter (tinyNode true 1 1)) 0%nat) 0) as [E|_]; [cbn in E; lra|].
    unfold enter, supplyUpdate. cbn. lra. }
  assert (St : settled tiny (matter (tinyNode true 1 1))) by (apply tinyNode_settled; lra).
  split; [exact St|]. split; [exact Iv|]. split; [exact Lm|].
  apply C36_supplied_partial; auto; [cbn; intros; lra|lra].
Qed.
