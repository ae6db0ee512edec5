(** More properties of the solver's control flow: what a reported result has
    gone through, that the minimisation ends, and the solver under the driver. *)
From Coq Require Import List ZArith Bool Lia.
From Verif Require Import EquilModel EquilProps SilminModel SilminProps.
Import ListNotations.
Open Scope Z_scope.

(** The place a call starts from. *)
Definition here (i : Z) (c : Ctl) : Step := if i =? 0 then CHANGE_COMPOSITION else cStep c.

Definition begun (i : Z) (c : Ctl) : Ctl :=
  if i =? 0 then goto CHANGE_COMPOSITION (withReady false c) else withReady false c.
Lemma begun_step : forall i c, cStep (begun i c) = here i c.
Proof. intros i c. unfold begun, here. destruct (i =? 0); reflexivity. Qed.
Lemma begun_sys : forall i c, sys (begun i c) = sys c.
Proof. intros i c. unfold begun. destruct (i =? 0); reflexivity. Qed.
Lemma begun_ready : forall i c, readyOut (begun i c) = false.
Proof. intros i c. unfold begun. destruct (i =? 0); reflexivity. Qed.

Lemma ready_nextStage : forall c, readyOut (nextStage c) = readyOut c.
Proof. intros c. unfold nextStage. destruct (cStage c) as [|k []]; destruct (cStep c); reflexivity. Qed.
Lemma ready_enterStage : forall c, readyOut (enterStage c) = readyOut c.
Proof.
  intros c. unfold enterStage. destruct (cStage c); [|reflexivity]. destruct (negb _); [|reflexivity].
  destruct (active KH _); [reflexivity|]. destruct (active KS _); [reflexivity|]. destruct (active KV _); reflexivity.
Qed.

(** A result is ready exactly after the output step. *)
Lemma ready_iff : forall i a c, readyOut (snd (silmin i a c)) = true <-> here i c = OUTPUT_RESULTS.
Proof.
  intros i a c. rewrite <- begun_step. pose proof (begun_ready i c) as R. unfold silmin.
  fold (begun i c). set (c1 := begun i c) in *. clearbody c1. clear c. cbv zeta.
  assert (NO : forall b (P : Prop), b = false -> ~ P -> (b = true <-> P)) by (intros b P -> N; split; [discriminate|tauto]).
  destruct (cStep c1) eqn:S1; try (apply NO; [exact R|discriminate]).
  - apply NO; [|discriminate]. destruct (superSat c1); [destruct (aAddFail a)|]; exact R.
  - apply NO; [|discriminate]. cbn [snd]. unfold goto; cbn [readyOut]. rewrite ready_enterStage. exact R.
  - apply NO; [|discriminate]. destruct (aFull a); [destruct (aRank a)|destruct (anyActive _)]; exact R.
  - apply NO; [|discriminate].
    assert (RR : readyOut (if aBest a then keepBest c1 else c1) = false) by (destruct (aBest a); exact R).
    set (c2 := if aBest a then _ else _) in *. clearbody c2.
    destruct (aTight a); [cbn [snd]; rewrite ready_nextStage; exact RR|].
    destruct (ITERMX <? _); [|exact RR].
    destruct (aLoose a); [cbn [snd]; rewrite ready_nextStage; exact RR|].
    destruct (acceptable c2); [cbn [snd]; rewrite ready_nextStage; exact RR|exact RR].
  - apply NO; [|discriminate].
    assert (RR : readyOut (match aLin a with Some z => withStat (linCode z) c1 | None => c1 end) = false) by (destruct (aLin a); exact R).
    set (c2 := match aLin a with Some _ => _ | None => _ end) in *. clearbody c2.
    assert (R3 : readyOut (if anyActive (sys c1) then withData (cond (if anyActive (sys c1) then setCond (aCond a) (sys c1) else sys c1)) c2 else c2) = false)
      by (destruct (anyActive _); exact RR).
    set (c3 := if anyActive (sys c1) then withData _ _ else _) in *. clearbody c3.
    destruct (_ && aOptimal a); cbn [snd]; [rewrite ready_nextStage|]; exact R3.
  - apply NO; [|discriminate].
    set (c2 := goto _ c1). assert (R2 : readyOut c2 = false) by exact R. clearbody c2. clear R.
    set (d := Nat.min _ _). set (c3 := if Nat.eqb d 0 then c2 else _).
    assert (R3 : readyOut c3 = false) by (unfold c3; destruct (Nat.eqb d 0); exact R2). clearbody c3.
    set (e := if _ : bool then _ else O).
    set (c4 := if Nat.eqb e 0 then c3 else _).
    assert (R4 : readyOut c4 = false) by (unfold c4; destruct (Nat.eqb e 0); exact R3). clearbody c4.
    destruct (liquid (sys c1) && aLiqGone a); exact R4.
  - apply NO; [|discriminate]. destruct (aSuper a); [exact R|]. destruct (aCoexSol a); [exact R|]. destruct (_ && _); exact R.
  - split; reflexivity.
Qed.

(** The last saturation check before an output found nothing to add, and the
    state put out is the state checked. *)
Lemma output_after : forall i a c, cStep (snd (silmin i a c)) = OUTPUT_RESULTS ->
  here i c = VERIFY_SATURATION /\ aSuper a = false /\ aCoexSol a = false /\
  (liquid (sys c) = true -> multi (sys c) = true -> aCoexLiq a = false) /\
  sys (snd (silmin i a c)) = sys c /\ fst (silmin i a c) = false.
Proof.
  intros i a c. rewrite <- begun_step. pose proof (begun_sys i c) as Y. unfold silmin.
  fold (begun i c). set (c1 := begun i c) in *. clearbody c1. cbv zeta.
  assert (NX : forall x, cStep x = CONVERGENCE_TEST -> cStep (nextStage x) <> OUTPUT_RESULTS).
  { intros x E. unfold nextStage. rewrite E. destruct (cStage x) as [|k []]; cbn; rewrite ?E; discriminate. }
  destruct (cStep c1) eqn:S1; try discriminate.
  - destruct (superSat c1); [destruct (aAddFail a)|]; discriminate.
  - set (c2 := if aBest a then _ else _).
    destruct (aTight a); [cbn [snd]; intros E; exfalso; eapply NX; [|exact E]; reflexivity|].
    destruct (ITERMX <? _); [|discriminate].
    destruct (aLoose a); [cbn [snd]; intros E; exfalso; eapply NX; [|exact E]; reflexivity|].
    destruct (acceptable c2); [|discriminate]. cbn [snd]; intros E; exfalso; eapply NX; [|exact E]; reflexivity.
  - set (c2 := if anyActive (sys c1) then withData _ _ else _).
    destruct (_ && aOptimal a); [|discriminate]. cbn [snd]; intros E; exfalso; eapply NX; [|exact E]; reflexivity.
  - set (c2 := goto _ c1). assert (R2 : cStep c2 <> OUTPUT_RESULTS) by (unfold c2; cbn; destruct (_ || _); discriminate). clearbody c2.
    set (d := Nat.min _ _). set (c3 := if Nat.eqb d 0 then c2 else _).
    assert (R3 : cStep c3 <> OUTPUT_RESULTS) by (unfold c3; destruct (Nat.eqb d 0); [exact R2|discriminate]). clearbody c3.
    set (e := if _ : bool then _ else O).
    set (c4 := if Nat.eqb e 0 then c3 else _).
    assert (R4 : cStep c4 <> OUTPUT_RESULTS) by (unfold c4; destruct (Nat.eqb e 0); [exact R3|discriminate]). clearbody c4.
    cbn [snd]. destruct (liquid (sys c1) && aLiqGone a); [discriminate|]. intros E; contradiction.
  - destruct (aSuper a); [discriminate|]. destruct (aCoexSol a); [discriminate|].
    destruct (liquid (sys c1) && multi (sys c1) && aCoexLiq a) eqn:B; [discriminate|]. intros _.
    rewrite Y in B. cbn. rewrite Y. repeat split; auto.
    intros L M. rewrite L, M in B. exact B.
Qed.

(** * C61: what a reported result has gone through. *)
Theorem C61_result_was_checked : forall l i1 a1 i2 a2 c,
  let c1 := calls l c in
  let c2 := snd (silmin i1 a1 c1) in
  let c3 := snd (silmin i2 a2 c2) in
  readyOut c3 = true ->
  (* the call before was a saturation check that found no supersaturated
     phase and no phase that should be split, and the result reported is the
     state it examined *)
  here i1 c1 = VERIFY_SATURATION /\ aSuper a1 = false /\ aCoexSol a1 = false /\
  (liquid (sys c1) = true -> multi (sys c1) = true -> aCoexLiq a1 = false) /\
  (path (sys c3), liquid (sys c3), nSol (sys c3), nLiq (sys c3), cond (sys c3)) =
  (path (sys c1), liquid (sys c1), nSol (sys c1), nLiq (sys c1), cond (sys c1)) /\
  (forall k, flag (sys c3) k = flag (sys c1) k).
Proof.
  intros l i1 a1 i2 a2 c c1 c2 c3 R.
  apply (proj1 (ready_iff i2 a2 c2)) in R. unfold here in R.
  destruct (i2 =? 0) eqn:I2; [discriminate|].
  destruct (output_after i1 a1 c1 R) as (H1 & H2 & H3 & H4 & H5 & _). fold c2 in H5.
  assert (Y3 : sys c3 = setRef (fun k => refNZ (sys c2) k || flag (sys c2) k) (sys c2)).
  { unfold c3, silmin. rewrite I2. cbn [cStep withReady]. rewrite R. reflexivity. }
  rewrite Y3, H5. repeat split; auto.
Qed.

(** * C61 and C22 together: the solver under the driver. *)

(** The solver with a stream of answers still to come. *)
Notation Live := (Ctl * (nat -> Ans))%type.
Definition liveCall (i : Z) (s : Live) : bool * Live :=
  (fst (silmin i (snd s O) (fst s)), (snd (silmin i (snd s O) (fst s)), fun n => snd s (S n))).
Definition liveReady (s : Live) : bool := readyOut (fst s).
Definition liveStatus (s : Live) : Z := stat (fst s).
Definition liveSet (z : Z) (s : Live) : Live := (withStat z (fst s), snd s).
(** SetIncrements and AssimilateSetComposition: any change of the system. *)
Definition liveIncr (g : Sys -> Sys) (s : Live) : Live := (withSys (g (sys (fst s))) (fst s), snd s).
Definition liveIterate (g : Sys -> Sys) :=
  iterate Live liveCall liveReady liveStatus liveSet (liveIncr g).
Definition liveStep (g : Sys -> Sys) :=
  step Live liveCall liveReady liveStatus liveSet (liveIncr g).

(** Reading a run: how many results were made ready since the last
    equilibration ended, and whether every successful one had exactly one. *)
Definition scan (x : bool * nat) (e : Event) : bool * nat :=
  match e with
  | Called _ true r st =>
      let n := (snd x + if r then 1 else 0)%nat in
      (fst x && (negb (st =? SILMIN_SUCCESS) || Nat.eqb n 1), 0%nat)
  | Called _ false r _ => (fst x, (snd x + if r then 1 else 0)%nat)
  | Incremented => (fst x, 0%nat)
  | Saved _ => x
  end.

Lemma scan_false : forall l n, fst (fold_left scan l (false, n)) = false.
Proof.
  induction l as [|e l IH]; intros n; [reflexivity|]. cbn [fold_left].
  destruct e as [i [] r st| |]; cbn; apply IH.
Qed.

Lemma scan_eq : forall o st, Equilibration o st -> forall n q,
  fst (fold_left scan (o ++ q) (true, n)) = true -> st = SILMIN_SUCCESS -> (n + readyCount o = 1)%nat.
Proof.
  intros o st E. induction E as [i r st|i r st0 l st E IH]; intros n q H S.
  - cbn [app fold_left scan fst snd] in H. subst st. rewrite Z.eqb_refl in H. cbn [negb orb andb] in H.
    destruct (Nat.eqb_spec (n + (if r then 1 else 0)) 1) as [G|G].
    + destruct r; cbn; lia.
    + rewrite scan_false in H. discriminate.
  - cbn [app fold_left scan fst snd] in H. specialize (IH _ _ H S). destruct r; cbn; lia.
Qed.

Lemma scan_oneReady : forall l, fst (fold_left scan l (true, 0%nat)) = true -> oneReady l.
Proof.
  intros l H p o q E P Q. subst l. destruct P as [P|[p' P]]; subst p.
  - cbn [app] in H. pose proof (scan_eq _ _ Q 0%nat q H eq_refl). lia.
  - rewrite <- app_assoc in H. rewrite fold_left_app in H. cbn [app fold_left scan] in H.
    destruct (fold_left scan p' (true, 0%nat)) as [[|] n]; cbn [fst] in H.
    + pose proof (scan_eq _ _ Q 0%nat q H eq_refl). lia.
    + rewrite scan_false in H. discriminate.
Qed.

(** What the place tells about the results made ready. *)
Definition due (c : Ctl) : nat := match cStep c with UPDATE_SYSTEM => 1%nat | _ => 0%nat end.

Lemma true_at : forall i a c, fst (silmin i a c) = true -> stat (snd (silmin i a c)) = SILMIN_SUCCESS ->
  here i c = UPDATE_SYSTEM.
Proof.
  intros i a c. rewrite <- begun_step. unfold silmin. fold (begun i c). set (c1 := begun i c). clearbody c1. clear c.
  cbv zeta. destruct (cStep c1) eqn:S1; try discriminate; try reflexivity.
  - destruct (superSat c1); [|discriminate]. destruct (aAddFail a) as [[]|]; discriminate.
  - set (c2 := if aBest a then _ else _). clearbody c2.
    destruct (aTight a); [discriminate|]. destruct (ITERMX <? _); [|discriminate].
    destruct (aLoose a); [discriminate|]. destruct (acceptable c2); discriminate.
  - destruct (_ && aOptimal a); discriminate.
  - destruct (aSuper a); [discriminate|]. destruct (aCoexSol a); [discriminate|]. destruct (_ && _); discriminate.
Qed.

Lemma update_after : forall i a c, cStep (snd (silmin i a c)) = UPDATE_SYSTEM -> here i c = OUTPUT_RESULTS.
Proof.
  intros i a c. rewrite <- begun_step. unfold silmin. fold (begun i c). set (c1 := begun i c). clearbody c1. clear c.
  cbv zeta.
  assert (NX : forall x, cStep x = CONVERGENCE_TEST -> cStep (nextStage x) <> UPDATE_SYSTEM).
  { intros x E. unfold nextStage. rewrite E. destruct (cStage x) as [|k []]; cbn; rewrite ?E; discriminate. }
  destruct (cStep c1) eqn:S1; try discriminate; try reflexivity.
  - destruct (superSat c1); [destruct (aAddFail a)|]; discriminate.
  - set (c2 := if aBest a then _ else _).
    destruct (aTight a); [cbn [snd]; intros E; exfalso; eapply NX; [|exact E]; reflexivity|].
    destruct (ITERMX <? _); [|discriminate].
    destruct (aLoose a); [cbn [snd]; intros E; exfalso; eapply NX; [|exact E]; reflexivity|].
    destruct (acceptable c2); [|discriminate]. cbn [snd]; intros E; exfalso; eapply NX; [|exact E]; reflexivity.
  - set (c2 := if anyActive (sys c1) then withData _ _ else _).
    destruct (_ && aOptimal a); [|discriminate]. cbn [snd]; intros E; exfalso; eapply NX; [|exact E]; reflexivity.
  - set (c2 := goto _ c1). assert (R2 : cStep c2 <> UPDATE_SYSTEM) by (unfold c2; cbn; destruct (_ || _); discriminate). clearbody c2.
    set (d := Nat.min _ _). set (c3 := if Nat.eqb d 0 then c2 else _).
    assert (R3 : cStep c3 <> UPDATE_SYSTEM) by (unfold c3; destruct (Nat.eqb d 0); [exact R2|discriminate]). clearbody c3.
    set (e := if _ : bool then _ else O).
    set (c4 := if Nat.eqb e 0 then c3 else _).
    assert (R4 : cStep c4 <> UPDATE_SYSTEM) by (unfold c4; destruct (Nat.eqb e 0); [exact R3|discriminate]). clearbody c4.
    cbn [snd]. destruct (liquid (sys c1) && aLiqGone a); [discriminate|]. intros E; contradiction.
  - destruct (aSuper a); [discriminate|]. destruct (aCoexSol a); [discriminate|].
    destruct (_ && _); discriminate.
Qed.

Lemma due_call : forall i a c, (i = 0 -> cStep c = CHANGE_COMPOSITION) ->
  let c' := snd (silmin i a c) in
  let n := (due c + if readyOut c' then 1 else 0)%nat in
  (fst (silmin i a c) = true -> cStep c' = CHANGE_COMPOSITION /\ (stat c' = SILMIN_SUCCESS -> n = 1%nat)) /\
  (fst (silmin i a c) = false -> n = due c').
Proof.
  intros i a c I c' n.
  assert (HE : here i c = cStep c) by (unfold here; destruct (Z.eqb_spec i 0); [rewrite I|]; auto).
  assert (RE : readyOut c' = true <-> cStep c = OUTPUT_RESULTS) by (rewrite <- HE; apply ready_iff).
  assert (UP : cStep c = UPDATE_SYSTEM -> fst (silmin i a c) = true).
  { intros U. unfold silmin. destruct (Z.eqb_spec i 0) as [Z|Z].
    - rewrite (I Z) in U. discriminate.
    - cbn [cStep withReady]. rewrite U. reflexivity. }
  assert (OU : cStep c = OUTPUT_RESULTS -> fst (silmin i a c) = false /\ cStep c' = UPDATE_SYSTEM).
  { intros U. unfold c', silmin. destruct (Z.eqb_spec i 0) as [Z|Z].
    - rewrite (I Z) in U. discriminate.
    - cbn [cStep withReady]. rewrite U. split; reflexivity. }
  split; intros F.
  - split.
    + apply (silmin_true i a c). rewrite <- F. apply surjective_pairing.
    + intros S. pose proof (true_at i a c F S) as T. rewrite HE in T. unfold n, due. rewrite T.
      destruct (readyOut c'); [|reflexivity]. pose proof (proj1 RE eq_refl). congruence.
  - unfold n, due. destruct (readyOut c') eqn:RO.
    + destruct (OU (proj1 RE eq_refl)) as [_ U]. rewrite U, (proj1 RE eq_refl). reflexivity.
    + assert (N1 : cStep c <> UPDATE_SYSTEM) by (intros U; rewrite (UP U) in F; discriminate).
      assert (N2 : cStep c' <> UPDATE_SYSTEM).
      { intros U. apply (update_after i a c) in U. rewrite HE in U. apply RE in U. discriminate. }
      destruct (cStep c); destruct (cStep c'); try reflexivity; congruence.
Qed.

(** The invariant of a run, read off its trace. *)
Definition scanned (m : Mach Live) : bool * nat := fold_left scan (acts (trace Live m)) (true, 0%nat).
Definition ctl (m : Mach Live) : Ctl := fst (sol Live m).
Definition atStart (m : Mach Live) : Prop := cStep (ctl m) = CHANGE_COMPOSITION.

Definition RInv (m : Mach Live) : Prop :=
  scanned m = (true, due (ctl m)) /\
  match pc Live m with
  | PInit => atStart m
  | PFor | PZero => atStart m /\ (0 <= calcIndex Live m) /\ (pc Live m = PZero -> 0 < remaining Live m)
  | PWhile | PCall => (0 < remaining Live m) /\ (0 <= calcIndex Live m) /\ (calcIndex Live m = 0 -> atStart m) /\
      (pc Live m = PWhile -> silminEnd Live m = true -> atStart m)
  | PRet e => (0 < remaining Live m) /\ (0 <= calcIndex Live m) /\ (e = true -> atStart m)
  | PSave | PRem => (0 < remaining Live m) /\ (0 < calcIndex Live m) /\ (silminEnd Live m = true -> atStart m)
  | PStatus | PInc | PIncDo | PDec => atStart m /\ (0 <= calcIndex Live m) /\ (0 < remaining Live m)
  | PDecW v => atStart m /\ (0 <= calcIndex Live m)
  | PDone _ => True
  end.

Lemma acts_cons : forall e l, acts (e :: l) = acts l ++ if isSaved e then [] else [e].
Proof. intros e l. unfold acts. cbn. destruct (isSaved e); cbn; [rewrite app_nil_r|]; reflexivity. Qed.

Lemma RInv_step : forall g m, RInv m -> RInv (liveStep g m).
Proof.
  intros g m (SC & I). unfold liveStep, EquilModel.step. destruct (pc Live m) eqn:PCE.
  - (* PInit *) cbn [sol lastIndex setSol].
    destruct (lastIndex Live m <? 0) eqn:L; unfold RInv, scanned; cbn; (split; [exact SC|]);
      (split; [exact I|]); (split; [|discriminate]); lia.
  - destruct I as (A & B & _). destruct (0 <? remaining Live m) eqn:L; unfold RInv; cbn; (split; [exact SC|]); [|exact Logic.I].
    apply Z.ltb_lt in L. auto.
  - destruct I as (A & B & C). unfold RInv; cbn. split; [exact SC|]. repeat split; auto; discriminate.
  - destruct I as (A & B & C & D). destruct (silminEnd Live m) eqn:SE; unfold RInv; cbn; (split; [exact SC|]).
    + repeat split; auto.
    + repeat split; auto. discriminate.
  - destruct I as (A & B & C & D). unfold liveCall at 1. unfold RInv.
    cbn [pc atPc note setSol remaining calcIndex].
    pose proof (due_call (calcIndex Live m) (snd (sol Live m) O) (ctl m) C) as (D1 & D2).
    unfold ctl in *. set (r := silmin _ _ _) in *. unfold scanned. cbn [trace note atPc setSol].
    rewrite acts_cons. cbn [isSaved]. rewrite fold_left_app. fold (scanned m). rewrite SC.
    cbn [fold_left scan fst snd]. unfold liveReady, liveStatus. cbn [fst].
    destruct (fst r) eqn:FR.
    + destruct (D1 eq_refl) as [E1 E2]. split.
      * unfold atPc, note, setSol, ctl; cbn [sol fst snd]. unfold due at 2. rewrite E1. f_equal. cbn [andb].
        destruct (Z.eqb_spec (stat (snd r)) SILMIN_SUCCESS) as [S|S]; [|reflexivity]. cbn [negb orb].
        apply Nat.eqb_eq. apply E2, S.
      * repeat split; auto.
    + split; [|repeat split; auto; discriminate]. f_equal. apply D2. reflexivity.
  - destruct I as (A & B & C). unfold RInv; cbn. split; [exact SC|]. split; [exact A|]. split; [|exact C].
    destruct (Z.eqb_spec (calcIndex Live m + 1) INT_MAX); lia.
  - destruct I as (A & B & C). destruct (_ && _); unfold RInv; cbn; (split; [exact SC|repeat split; auto]).
  - destruct I as (A & B & C). destruct (remaining Live m =? 0) eqn:R0; [apply Z.eqb_eq in R0; lia|].
    unfold RInv; cbn. split; [exact SC|]. split; [exact A|]. split; [lia|]. split; [lia|auto].
  - destruct I as (A & B & C). destruct (_ =? _); unfold RInv; cbn; (split; [exact SC|]); auto.
  - destruct I as (A & B & C). destruct (_ <? _); unfold RInv; cbn; (split; [exact SC|]); auto.
  - destruct I as (A & B & C). unfold RInv. cbn [pc atPc note setSol remaining calcIndex]. split; [|auto].
    unfold scanned. cbn [trace note setSol atPc]. rewrite acts_cons. cbn [isSaved]. rewrite fold_left_app.
    fold (scanned m). rewrite SC. cbn. unfold atStart in A. unfold ctl, due in *. cbn. rewrite A. reflexivity.
  - destruct I as (A & B & C). unfold RInv; cbn. split; [exact SC|]. auto.
  - destruct I as (A & B). unfold RInv; cbn. split; [exact SC|]. repeat split; auto. discriminate.
  - unfold RInv. rewrite PCE. split; [exact SC|exact Logic.I].
Qed.

Lemma RInv_iterate : forall g k m, RInv m -> RInv (liveIterate g k m).
Proof.
  intros g. induction k as [|k IH]; intros m I; [exact I|].
  apply (IH (liveStep g m)), RInv_step, I.
Qed.

(** A run of [n] steps that succeeds saves one result per step, and one more
    if it is the first: whatever the solver's answers and whatever the
    increments do to the system. *)
Theorem C61_results_of_a_run : forall g m0 n k,
  0 <= n -> pc Live m0 = PInit -> trace Live m0 = [] -> calcSteps Live m0 = n + 1 -> atStart m0 ->
  let m := liveIterate g k m0 in
  pc Live m = PDone true ->
  Z.of_nat (length (steps Live m)) =
    Z.of_nat (length (steps Live m0)) + n + (if lastIndex Live m0 <=? 0 then 1 else 0).
Proof.
  intros g m0 n k N P T C A m D.
  apply (C22_one_result_per_step Live liveCall liveReady liveStatus liveSet (liveIncr g) m0 n k N P T C D).
  apply scan_oneReady.
  assert (R0 : RInv m0).
  { unfold RInv. rewrite P. split; [|exact A]. unfold scanned. rewrite T. cbn. unfold due. rewrite A. reflexivity. }
  pose proof (RInv_iterate g k m0 R0) as (SC & _). unfold scanned in SC. fold (liveIterate g).
  change (fst (fold_left scan (acts (trace Live m)) (true, 0%nat)) = true). unfold m. rewrite SC. reflexivity.
Qed.

(** A case: two steps after the first result. *)
Theorem C61_case :
  let m0 := mkMach Live PInit (runA, fun _ => converge) 3 0 false 0 0 [] false false [] in
  let m := liveIterate (fun s => setCond (cond s - 10) s) 400 m0 in
  atStart m0 /\ pc Live m = PDone true /\ length (steps Live m) = 3%nat.
Proof. vm_compute. repeat split. Qed.
