(** The minimisation between two saturation checks ends; what its results
    were computed from. *)
From Coq Require Import List ZArith Bool Lia.
From Verif Require Import EquilModel EquilProps SilminModel SilminProps SilminRun.
Import ListNotations.
Open Scope Z_scope.

(** * C62: the minimisation ends. *)

(** Phases present. *)
Definition cnt (s : Sys) : nat := (nSol s + nLiq s + if liquid s then 1 else 0)%nat.

Definition rank (g : Stage) : nat :=
  match g with Pre => 3 | Stg _ One => 2 | Stg _ Two => 1 | Stg _ Three => 0 end.
Definition pos (p : Step) : nat :=
  match p with
  | SOLVE_QUADRATIC => 6 | REASSEMBLE_SOLUTION => 5 | LINEAR_SEARCH => 4 | DROP_PHASE => 3
  | PROJECT_CONSTRAINTS => 2 | PRE_QUADRATIC => 1 | _ => 0
  end.
(** The iteration count at each place. *)
Definition inRange (c : Ctl) : Prop :=
  match cStep c with
  | SOLVE_QUADRATIC | REASSEMBLE_SOLUTION => 1 <= iterQuad c <= ITERMX + 1
  | LINEAR_SEARCH | DROP_PHASE => 1 <= iterQuad c <= ITERMX
  | PROJECT_CONSTRAINTS | PRE_QUADRATIC | CONSTRUCT_QUADRATIC => 0 <= iterQuad c <= ITERMX
  | _ => True
  end.

Section Measure.
Variable K : nat.
Definition QI (c : Ctl) : Prop :=
  quadStep (cStep c) = true /\ inRange c /\ (cnt (sys c) <= K)%nat /\
  (acceptable c = true -> (cnt (best c) <= K)%nat).
Definition M (c : Ctl) : nat :=
  (((rank (cStage c) * (K + 1) + cnt (sys c)) * 102 + Z.to_nat (ITERMX + 1 - iterQuad c)) * 7 + pos (cStep c))%nat.

Lemma cnt_release : forall a s, cnt (maybeRelease a s) = cnt s.
Proof. intros a s. unfold maybeRelease. destruct (_ && _); reflexivity. Qed.

Definition goesOn (c c' : Ctl) : Prop := cStep c' = CONVERGENCE_TEST \/ (QI c' /\ (M c' < M c)%nat).

Lemma goes_next : forall c d x, (4 <= pos (cStep c))%nat -> (cnt x <= K)%nat ->
  sys d = x -> cStage d = cStage c -> cStep d = CONVERGENCE_TEST ->
  (acceptable d = true -> (cnt (best d) <= K)%nat) -> goesOn c (nextStage d).
Proof.
  intros c d x P Kx Sx G E B. unfold nextStage. rewrite E. destruct (cStage d) as [|k n] eqn:Gd; [left; exact E|].
  destruct n; [right|right|left; exact E].
  - split; [|unfold M; cbn; rewrite <- G; cbn].
    + unfold QI, inRange, ITERMX; cbn. split; [reflexivity|]. split; [lia|]. split; [rewrite Sx; exact Kx|exact B].
    + unfold cnt in *. cbn. rewrite Sx. unfold ITERMX in *. lia.
  - split; [|unfold M; cbn; rewrite <- G; cbn].
    + unfold QI, inRange, ITERMX; cbn. split; [reflexivity|]. split; [lia|]. split; [rewrite Sx; exact Kx|exact B].
    + unfold cnt in *. cbn. rewrite Sx. unfold ITERMX in *. lia.
Qed.

Lemma M_step : forall i a c, i <> 0 -> QI c ->
  fst (silmin i a c) = true \/ goesOn c (snd (silmin i a c)).
Proof.
  intros i a c I Q. unfold silmin. destruct (Z.eqb_spec i 0) as [Z|_]; [contradiction|].
  assert (Q1 : QI (withReady false c)) by exact Q.
  assert (M1 : M (withReady false c) = M c) by reflexivity.
  unfold goesOn. rewrite <- M1. clear M1 Q. set (c1 := withReady false c) in *. clearbody c1. clear c.
  destruct Q1 as (QS & RG & KS & KB). unfold inRange in RG. cbv zeta.
  destruct (cStep c1) eqn:SC; try discriminate.
  - right. right. cbn [snd].
    assert (A : cnt (sys (enterStage c1)) = cnt (sys c1) /\ iterQuad (enterStage c1) = iterQuad c1 /\
                acceptable (enterStage c1) = acceptable c1 /\ best (enterStage c1) = best c1 /\
                (rank (cStage (enterStage c1)) <= rank (cStage c1))%nat).
    { unfold enterStage. destruct (cStage c1) eqn:G; [|rewrite G; auto]. destruct (negb (path (sys c1) =? FO2_NONE)); [|rewrite G; auto].
      destruct (active KH (sys c1)); [cbn; repeat split; lia|]. destruct (active SilminModel.KS (sys c1)); [cbn; repeat split; lia|].
      destruct (active KV (sys c1)); [cbn; repeat split; lia|]. rewrite G; auto. }
    destruct A as (A1 & A2 & A3 & A4 & A5). split.
    + unfold QI, inRange; cbn. rewrite A1, A2, A3, A4. auto.
    + unfold M. cbn [cStep goto cStage sys iterQuad pos]. rewrite A1, A2, SC. cbn [pos]. nia.
  - right. right. cbn [snd]. split; [unfold QI, inRange; cbn; auto|]. unfold M; cbn [cStep goto cStage sys iterQuad pos].
    rewrite SC. cbn [pos]. lia.
  - right. right. cbn [snd]. split.
    + unfold QI, inRange; cbn. unfold ITERMX in *. repeat split; auto; lia.
    + unfold M; cbn [cStep goto cStage sys iterQuad pos withIter]. rewrite SC. cbn [pos]. unfold ITERMX in *. lia.
  - right. right. cbn [snd].
    set (c2 := if aFull a then _ else _).
    assert (A : cnt (sys c2) = cnt (sys c1) /\ iterQuad c2 = iterQuad c1 /\
                acceptable c2 = acceptable c1 /\ best c2 = best c1 /\ cStage c2 = cStage c1).
    { unfold c2. destruct (aFull a); [destruct (aRank a); auto|]. destruct (anyActive _); [|auto].
      repeat split. cbn [sys withData withSys]. rewrite <- (cnt_release a (sys c1)). reflexivity. }
    clearbody c2. destruct A as (A1 & A2 & A3 & A4 & A5). split.
    + unfold QI, inRange; cbn. rewrite A1, A2, A3, A4. auto.
    + unfold M. cbn [cStep goto cStage sys iterQuad pos]. rewrite A1, A2, A5, SC. cbn [pos]. lia.
  - set (c2 := if aBest a then _ else _).
    assert (A : sys c2 = sys c1 /\ iterQuad c2 = iterQuad c1 /\ cStage c2 = cStage c1 /\
                (acceptable c2 = true -> (cnt (best c2) <= K)%nat)).
    { unfold c2. destruct (aBest a); cbn; auto. }
    clearbody c2. destruct A as (A1 & A2 & A3 & A4).
    assert (NX : forall x, (cnt x <= K)%nat -> goesOn c1 (nextStage (goto CONVERGENCE_TEST (withSys x c2)))).
    { intros x Kx. eapply goes_next; [rewrite SC; cbn; lia|exact Kx|reflexivity|exact A3|reflexivity|exact A4]. }
    assert (N2 : goesOn c1 (nextStage (goto CONVERGENCE_TEST c2))).
    { rewrite <- (withSys_id c2) at 1. apply NX. rewrite A1. exact KS. }
    destruct (aTight a); [right; exact N2|]. destruct (ITERMX <? iterQuad c2) eqn:IT.
    + destruct (aLoose a); [right; exact N2|]. destruct (acceptable c2) eqn:AC; [|left; reflexivity].
      right. apply NX. apply A4. reflexivity.
    + apply Z.ltb_ge in IT. rewrite A2 in IT. right. right. cbn [snd]. split.
      * unfold QI, inRange; cbn. rewrite A1, A2. repeat split; auto; lia.
      * unfold M. cbn [cStep goto cStage sys iterQuad pos]. rewrite A1, A2, A3, SC. cbn [pos]. lia.
  - set (c2 := match aLin a with Some _ => _ | None => _ end).
    assert (A : iterQuad c2 = iterQuad c1 /\ cStage c2 = cStage c1 /\ acceptable c2 = acceptable c1 /\ best c2 = best c1)
      by (unfold c2; destruct (aLin a); auto).
    clearbody c2. destruct A as (A2 & A3 & A4 & A5).
    set (s' := if anyActive (sys c1) then setCond _ _ else _).
    assert (KS' : (cnt (setLiquid (liquid (sys c1) && aLiquid a) s') <= cnt (sys c1))%nat).
    { unfold s', cnt. destruct (anyActive (sys c1)); cbn; destruct (liquid (sys c1)); destruct (aLiquid a); cbn; lia. }
    set (c3 := if anyActive (sys c1) then withData _ _ else _).
    assert (A : iterQuad c3 = iterQuad c2 /\ cStage c3 = cStage c2 /\ acceptable c3 = acceptable c2 /\ best c3 = best c2)
      by (unfold c3; destruct (anyActive _); auto).
    clearbody c3 s'. destruct A as (B2 & B3 & B4 & B5).
    right. destruct (_ && aOptimal a).
    + eapply goes_next; [rewrite SC; cbn; lia| |reflexivity|cbn; congruence|reflexivity|].
      * cbn [sys withSys goto]. lia.
      * cbn. rewrite B4, B5, A4, A5. exact KB.
    + right. cbn [snd]. split.
      * unfold QI, inRange; cbn [cStep goto quadStep sys withSys iterQuad acceptable best].
        rewrite B2, B4, B5, A2, A4, A5. split; [reflexivity|]. split; [lia|]. split; [lia|exact KB].
      * unfold M. cbn [cStep goto cStage sys iterQuad pos withSys]. rewrite B2, B3, A2, A3, SC. cbn [pos]. nia.
  - right. right. cbn [snd].
    set (hl := liquid (sys c1)).
    set (c2 := goto _ c1).
    assert (A2 : QI c2 /\ (M c2 < M c1)%nat).
    { unfold c2. destruct (_ || _); (split; [unfold QI, inRange; cbn; repeat split; auto; lia|]);
        unfold M; cbn [cStep goto cStage sys iterQuad pos]; rewrite SC; cbn [pos]; lia. }
    assert (Y2 : sys c2 = sys c1) by reflexivity. rewrite <- Y2.
    assert (HL : hl = true -> liquid (sys c2) = true) by (intros H; exact H).
    clearbody hl c2. revert A2 HL. generalize (M c1) as m1. intros m1 A2 HL. clear QS RG KS KB SC Y2 c1.
    assert (DR : forall c s, QI c -> (M c < m1)%nat -> (cnt s < cnt (sys c))%nat ->
       QI (restart (goto PROJECT_CONSTRAINTS (withSys s c))) /\
       (M (restart (goto PROJECT_CONSTRAINTS (withSys s c))) < m1)%nat).
    { intros c s (Q1 & Q2 & Q3 & Q4) L C. split.
      - unfold QI, inRange; cbn. unfold ITERMX. split; [reflexivity|]. split; [lia|]. split; [lia|discriminate].
      - unfold M in *. cbn [cStep restart goto cStage sys iterQuad pos withSys] in *. unfold ITERMX in *. nia. }
    set (d := Nat.min _ _).
    set (c3 := if Nat.eqb d 0 then c2 else _).
    assert (A3 : (QI c3 /\ (M c3 < m1)%nat) /\ (hl = true -> liquid (sys c3) = true)).
    { unfold c3. destruct (Nat.eqb_spec d 0) as [D|D]; [auto|]. split.
      - apply DR; [apply A2|apply A2|]. rewrite cnt_release. unfold cnt. cbn. unfold d in *. lia.
      - cbn [sys restart goto withSys]. intros H. unfold maybeRelease. destruct (_ && _); cbn; apply HL, H. }
    clearbody c3. clear A2 HL d c2. destruct A3 as (A3 & HL).
    set (e := if hl && _ && _ then _ else O).
    set (c4 := if Nat.eqb e 0 then c3 else _).
    assert (A4 : (QI c4 /\ (M c4 < m1)%nat) /\ (hl = true -> liquid (sys c4) = true)).
    { unfold c4. destruct (Nat.eqb_spec e 0) as [D|D]; [auto|]. split; [|exact HL].
      apply DR; [apply A3|apply A3|]. unfold cnt. cbn. unfold e in *.
      destruct (_ && _); [|lia]. lia. }
    clearbody c4. clear A3 HL e c3. destruct A4 as (A4 & HL).
    destruct (hl && aLiqGone a) eqn:G; [|exact A4].
    apply andb_true_iff in G. destruct G as [G _].
    apply DR; [apply A4|apply A4|]. unfold cnt. cbn. rewrite (HL G). lia.
Qed.

End Measure.

(** Entering the minimisation: it always starts afresh. *)
Theorem C62_minimisation_starts : forall i a c,
  quadStep (here i c) = false -> quadStep (cStep (snd (silmin i a c))) = true ->
  let c' := snd (silmin i a c) in
  cStep c' = PROJECT_CONSTRAINTS /\ iterQuad c' = 0 /\ acceptable c' = false.
Proof.
  intros i a c H. rewrite <- begun_step in H. unfold silmin. fold (begun i c). set (c1 := begun i c) in *.
  clearbody c1. clear c. cbv zeta. destruct (cStep c1) eqn:S1; try discriminate.
  - destruct (superSat c1); [destruct (aAddFail a)|]; [discriminate| |]; intros _; repeat split.
  - destruct (aSuper a); [discriminate|]. destruct (aCoexSol a); [intros _; repeat split|].
    destruct (_ && _); [intros _; repeat split|discriminate].
Qed.

(** Whatever the numerical answers, at most 2856 calls per phase present
    (and once more) after it starts, the minimisation has converged or given
    up. *)
Theorem C62_minimisation_ends : forall (w : nat -> Z * Ans) c,
  (forall n, fst (w n) <> 0) ->
  cStep c = PROJECT_CONSTRAINTS -> iterQuad c = 0 -> acceptable c = false ->
  exists n, (n <= 2856 * (cnt (sys c) + 1))%nat /\
    (cStep (calls (map w (seq 0 n)) c) = CONVERGENCE_TEST \/
     fst (silmin (fst (w n)) (snd (w n)) (calls (map w (seq 0 n)) c)) = true).
Proof.
  intros w c W S0 I0 A0.
  assert (Q : QI (cnt (sys c)) c).
  { unfold QI, inRange. rewrite S0, I0, A0. unfold ITERMX. split; [reflexivity|]. split; [lia|]. split; [lia|discriminate]. }
  assert (B : (M (cnt (sys c)) c < 2856 * (cnt (sys c) + 1))%nat).
  { unfold M. rewrite S0, I0. unfold ITERMX. cbn [pos]. assert (rank (cStage c) <= 3)%nat by (destruct (cStage c) as [|k []]; cbn; lia). nia. }
  set (K := cnt (sys c)) in *. clearbody K. clear S0 I0 A0.
  assert (G : forall m w c, (forall n, fst (w n) <> 0) -> QI K c -> (M K c < m)%nat ->
    exists n, (n <= m)%nat /\ (cStep (calls (map w (seq 0 n)) c) = CONVERGENCE_TEST \/
     fst (silmin (fst (w n)) (snd (w n)) (calls (map w (seq 0 n)) c)) = true)).
  { clear. induction m as [|m IH]; intros w c W Q B; [lia|].
    destruct (M_step K (fst (w O)) (snd (w O)) c (W O) Q) as [T|[T|[Q' L]]].
    - exists 0%nat. split; [lia|]. right. exact T.
    - exists 1%nat. split; [lia|]. left. cbn. destruct (w O) as [i a]. exact T.
    - destruct (IH (fun n => w (S n)) (snd (silmin (fst (w O)) (snd (w O)) c)) (fun n => W (S n)) Q') as (n & Ln & R); [lia|].
      exists (S n). split; [lia|].
      assert (E : calls (map w (seq 0 (S n))) c = calls (map (fun n => w (S n)) (seq 0 n)) (snd (silmin (fst (w O)) (snd (w O)) c))).
      { cbn [seq map calls]. destruct (w O) as [i a]. cbn [fst snd]. rewrite <- seq_shift, map_map. reflexivity. }
      rewrite E. exact R. }
  apply (G _ w c W Q B).
Qed.

(** The table of potentials has ITERMX+1 places; the linear search writes
    place iterQuad and reads the five before. *)
Lemma inRange_call : forall i a c, inRange c -> inRange (snd (silmin i a c)).
Proof.
  intros i a c R.
  destruct (quadStep (here i c)) eqn:Q.
  - assert (I : i <> 0) by (intros ->; discriminate).
    unfold here in Q. destruct (Z.eqb_spec i 0); [contradiction|].
    set (K := Nat.max (cnt (sys c)) (cnt (best c))).
    assert (QQ : QI K c) by (repeat split; auto; unfold K; lia).
    destruct (M_step K i a c I QQ) as [T|[T|[Q' _]]].
    + assert (T' : silmin i a c = (true, snd (silmin i a c))) by (rewrite <- T; apply surjective_pairing).
      apply silmin_true in T'. unfold inRange. rewrite T'. exact Logic.I.
    + unfold inRange. rewrite T. exact Logic.I.
    + apply Q'.
  - destruct (quadStep (cStep (snd (silmin i a c)))) eqn:Q'.
    + destruct (C62_minimisation_starts i a c Q Q') as (S & I & _). unfold inRange. rewrite S, I. unfold ITERMX. lia.
    + unfold inRange. destruct (cStep (snd (silmin i a c))); try exact Logic.I; discriminate.
Qed.

Theorem C62_history_index : forall l i a c,
  fresh c -> let c1 := calls l c in
  here i c1 = LINEAR_SEARCH ->
  1 <= iterQuad c1 <= ITERMX /\
  (iterQuad (snd (silmin i a c1)) = iterQuad c1 \/ iterQuad (snd (silmin i a c1)) = 0).
Proof.
  intros l i a c F c1 H.
  assert (R : inRange c1).
  { unfold c1. assert (R0 : inRange c) by (unfold inRange; rewrite (proj2 F); exact Logic.I).
    clear - R0. revert c R0. induction l as [|[i a] l IH]; intros c R; [exact R|]. apply IH, inRange_call, R. }
  clearbody c1. unfold here in H. destruct (i =? 0) eqn:I0; [discriminate|].
  unfold inRange in R. rewrite H in R. split; [exact R|].
  unfold silmin. rewrite I0. cbn [cStep withReady]. rewrite H. cbv zeta.
  set (c2 := match aLin a with Some _ => _ | None => _ end).
  assert (I2 : iterQuad c2 = iterQuad c1) by (unfold c2; destruct (aLin a); reflexivity). clearbody c2.
  set (c3 := if anyActive (sys (withReady false c1)) then withData _ _ else _).
  assert (I3 : iterQuad c3 = iterQuad c2) by (unfold c3; destruct (anyActive _); reflexivity). clearbody c3.
  destruct (_ && aOptimal a); cbn [snd].
  - unfold nextStage. cbn [cStage cStep goto withSys]. destruct (cStage c3) as [|k []]; cbn; [left|right|right|left]; congruence.
  - left. cbn. congruence.
Qed.

(** A case: after the check for phases to add. *)
Theorem C62_case : let c := calls (numbered 0 (repeat quiet 4)) runA in
  cStep c = PROJECT_CONSTRAINTS /\ iterQuad c = 0 /\ acceptable c = false /\ cnt (sys c) = 4%nat /\
  here 5 (calls (numbered 0 (repeat quiet 9)) runA) = LINEAR_SEARCH.
Proof. vm_compute. repeat split. Qed.
