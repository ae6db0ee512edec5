(** Properties of the solver's control flow. *)
From Coq Require Import List ZArith Bool Lia Wellfounded.
From Verif Require Import EquilModel EquilProps SilminModel.
Import ListNotations.
Open Scope Z_scope.

(** * C60: what the user asked for is still asked for after a success. *)

(** One equilibration: calls until one returns true. Only the first call may
    have index 0 (Equilibrate never passes 0 again). *)
Inductive Until : Z -> Ctl -> Ctl -> Prop :=
| UNow : forall i a c c', silmin i a c = (true, c') -> Until i c c'
| ULater : forall i a c c1 j c', silmin i a c = (false, c1) -> j <> 0 -> Until j c1 c' -> Until i c c'.

(** As at the start of the program, and after every success. *)
Definition fresh (c : Ctl) : Prop := cStage c = Pre /\ cStep c = CHANGE_COMPOSITION.

Definition quadStep (p : Step) : bool :=
  match p with
  | PROJECT_CONSTRAINTS | PRE_QUADRATIC | CONSTRUCT_QUADRATIC | SOLVE_QUADRATIC
  | REASSEMBLE_SOLUTION | LINEAR_SEARCH | DROP_PHASE => true
  | _ => false
  end.

Section Flags.
Variable f0 : Kind -> bool.
Variable q : Z.

Definition okPath (z : Z) : Prop := z = q \/ z = FO2_NONE.
Definition others (k : Kind) (s : Sys) : Prop := forall x, x <> k -> flag s x = f0 x.
Definition same (s : Sys) : Prop := forall x, flag s x = f0 x.

Definition FInv (c : Ctl) : Prop :=
  okPath (path (sys c)) /\
  match cStage c with
  | Pre => same (sys c) /\
      (quadStep (cStep c) = true -> acceptable c = true -> same (best c) /\ okPath (path (best c)))
  | Stg k n => f0 k = true /\ others k (sys c) /\ quadStep (cStep c) = true /\
      (acceptable c = true -> others k (best c) /\ okPath (path (best c))) /\
      (n <> One -> okPath (pathOld c))
  end.

Lemma okPath_release : forall a s, okPath (path s) -> okPath (path (maybeRelease a s)).
Proof. intros a s O. unfold maybeRelease. destruct (_ && _); [right; reflexivity|exact O]. Qed.
Lemma flag_release : forall a s x, flag (maybeRelease a s) x = flag s x.
Proof. intros a s x. unfold maybeRelease. destruct (_ && _); reflexivity. Qed.

Lemma kind_eqb_spec : forall a b, reflect (a = b) (kind_eqb a b).
Proof. intros [] []; constructor; congruence. Qed.

Lemma same_others : forall k s, same s -> others k s.
Proof. intros k s H x _. apply H. Qed.

Lemma set_others : forall k b s, others k s -> others k (setFlag k b s).
Proof.
  intros k b s H x N. cbn. unfold setK. destruct (kind_eqb_spec x k); [congruence|]. apply H, N.
Qed.
Lemma set_same : forall k s, f0 k = true -> others k s -> same (setFlag k true s).
Proof.
  intros k s F H x. cbn. unfold setK. destruct (kind_eqb_spec x k); [congruence|]. apply H, n.
Qed.

Lemma active_flag : forall k s, active k s = true -> flag s k = true.
Proof. intros k s H. apply andb_true_iff in H. tauto. Qed.

Lemma FInv_enterStage : forall c, FInv c -> cStep c = PROJECT_CONSTRAINTS ->
  FInv (goto PRE_QUADRATIC (enterStage c)).
Proof.
  intros c (P & I) E. unfold enterStage. destruct (cStage c) as [|k n] eqn:G.
  - destruct I as (S & B). rewrite E in B.
    assert (K : forall k, active k (sys c) = true ->
      FInv (goto PRE_QUADRATIC (withSys (setFlag k false (sys c)) (toStage (Stg k One) c)))).
    { intros k A. split; [exact P|]. cbn. split; [rewrite <- S; apply active_flag; exact A|].
      split; [apply set_others, same_others, S|]. split; [reflexivity|]. split; [|congruence].
      intros AC. destruct (B eq_refl AC) as [B1 B2]. split; [apply same_others, B1|exact B2]. }
    destruct (negb _); [|split; [exact P|cbn; rewrite G; split; [exact S|intros _; apply B; reflexivity]]].
    destruct (active KH (sys c)) eqn:A1; [apply K, A1|].
    destruct (active KS (sys c)) eqn:A2; [apply K, A2|].
    destruct (active KV (sys c)) eqn:A3; [apply K, A3|].
    split; [exact P|cbn; rewrite G; split; [exact S|intros _; apply B; reflexivity]].
  - split; [exact P|]. cbn. rewrite G. rewrite E in I. exact I.
Qed.

(** Convergence: [x] is the state to go on from. *)
Lemma FInv_nextStage : forall c x,
  okPath (path x) ->
  match cStage c with
  | Pre => same x
  | Stg k n => f0 k = true /\ others k x /\ (n <> One -> okPath (pathOld c)) /\
      (acceptable c = true -> others k (best c) /\ okPath (path (best c)))
  end ->
  FInv (nextStage (goto CONVERGENCE_TEST (withSys x c))).
Proof.
  intros c x P I. unfold nextStage. cbn [cStage cStep goto withSys].
  destruct (cStage c) as [|k n] eqn:G.
  - split; [exact P|]. cbn. rewrite G. split; [exact I|discriminate].
  - destruct I as (F & O & Q & B). destruct n.
    + split; [right; reflexivity|]. cbn. split; [exact F|].
      split; [apply set_others; intros y N; apply O, N|]. split; [reflexivity|]. split; [exact B|].
      intros _. exact P.
    + split; [apply Q; discriminate|]. cbn. split; [exact F|].
      split; [apply set_others; intros y N; apply O, N|]. split; [reflexivity|]. split; [exact B|].
      intros _. apply Q; discriminate.
    + split; [apply Q; discriminate|]. cbn. split; [|discriminate].
      apply set_same; [exact F|]. intros y N. apply O, N.
Qed.

Lemma FInv_keepBest : forall c, FInv c -> FInv (keepBest c).
Proof.
  intros c (P & I). split; [exact P|]. cbn. destruct (cStage c) as [|k n].
  - destruct I as (S & _). split; [exact S|]. intros _ _. split; [exact S|exact P].
  - destruct I as (F & O & Q & _ & PO). repeat split; auto.
Qed.

Lemma withSys_id : forall c, withSys (sys c) c = c.
Proof. intros []. reflexivity. Qed.

(** A step within the minimisation that changes only liquid and counts and
    perhaps releases the buffer. *)
Lemma FInv_quad : forall c c', FInv c -> quadStep (cStep c) = true -> quadStep (cStep c') = true ->
  cStage c' = cStage c -> (acceptable c' = true -> acceptable c = true) -> best c' = best c ->
  pathOld c' = pathOld c -> (forall x, flag (sys c') x = flag (sys c) x) -> okPath (path (sys c')) -> FInv c'.
Proof.
  intros c c' (P & I) QC QC' G A B O F P'. split; [exact P'|]. rewrite G, B, O.
  destruct (cStage c) as [|k n].
  - destruct I as (S & Bb). split; [intros x; rewrite F; apply S|]. intros _ AC. apply Bb; auto.
  - destruct I as (F0 & Ot & _ & Bb & PO). repeat split; auto.
    + intros x N. rewrite F. apply Ot, N.
    + apply Bb; auto.
    + apply Bb; auto.
Qed.

(** A step outside the minimisation. *)
Lemma FInv_outer : forall c c', FInv c -> quadStep (cStep c) = false ->
  cStage c' = cStage c -> (quadStep (cStep c') = true -> acceptable c' = false) ->
  (forall x, flag (sys c') x = flag (sys c) x) -> okPath (path (sys c')) -> FInv c'.
Proof.
  intros c c' (P & I) QC G A F P'. split; [exact P'|]. rewrite G.
  destruct (cStage c) as [|k n].
  - destruct I as (S & _). split; [intros x; rewrite F; apply S|]. intros Q AC. rewrite A in AC; congruence.
  - destruct I as (_ & _ & Q & _). congruence.
Qed.

Lemma FInv_silmin : forall i a c b c', FInv c -> (i = 0 -> fresh c) -> silmin i a c = (b, c') ->
  (b = false \/ stat c' = SILMIN_SUCCESS) -> FInv c'.
Proof.
  intros i a c b c' I Z0 E OK. unfold silmin in E.
  set (c1 := if i =? 0 then goto CHANGE_COMPOSITION (withReady false c) else withReady false c) in E.
  assert (I1 : FInv c1).
  { unfold c1. destruct (Z.eqb_spec i 0) as [Z|Z]; [|exact I].
    destruct (Z0 Z) as [G S]. destruct I as [P I]. rewrite G in I. split; [exact P|]. cbn. rewrite G.
    split; [apply I|discriminate]. }
  clearbody c1. clear I Z0 c. cbv zeta in E.
  destruct (cStep c1) eqn:SC.
  - injection E as <- <-. eapply FInv_outer; [exact I1|rewrite SC; reflexivity|reflexivity|discriminate|reflexivity|apply I1].
  - injection E as <- <-. eapply FInv_outer; [exact I1|rewrite SC; reflexivity|reflexivity|discriminate| |].
    + intros x. cbn. destruct (_ && _); [reflexivity|]. apply flag_release.
    + cbn. destruct (negb _ && liquid (sys c1)); [apply I1|]. apply okPath_release, I1.
  - injection E as <- <-. eapply FInv_outer; [exact I1|rewrite SC; reflexivity|reflexivity|discriminate|reflexivity|apply I1].
  - destruct (superSat c1).
    + destruct (aAddFail a) as [z|].
      * injection E as <- <-. destruct OK as [OK|OK]; [discriminate|]. cbn in OK. destruct z; discriminate.
      * injection E as <- <-. eapply FInv_outer; [exact I1|rewrite SC; reflexivity|reflexivity|reflexivity| |].
        { intros x. cbn. rewrite flag_release. destruct (aAddLiquid a); reflexivity. }
        { cbn. apply okPath_release. destruct (aAddLiquid a); apply I1. }
    + injection E as <- <-. eapply FInv_outer; [exact I1|rewrite SC; reflexivity|reflexivity|reflexivity|reflexivity|apply I1].
  - injection E as <- <-. apply FInv_enterStage; assumption.
  - injection E as <- <-. eapply FInv_quad; [exact I1|rewrite SC; reflexivity|reflexivity|reflexivity|auto|reflexivity|reflexivity|reflexivity|apply I1].
  - injection E as <- <-. eapply FInv_quad; [exact I1|rewrite SC; reflexivity|reflexivity|reflexivity|auto|reflexivity|reflexivity|reflexivity|apply I1].
  - injection E as <- <-.
    destruct (aFull a); [destruct (aRank a)|destruct (anyActive (sys c1))];
      (eapply FInv_quad; [exact I1|rewrite SC; reflexivity|reflexivity|reflexivity|auto|reflexivity|reflexivity| |]);
      cbn; try reflexivity; try apply I1; try (intros; apply flag_release); try apply okPath_release, I1.
  - set (c2 := if aBest a then keepBest c1 else c1) in E.
    assert (I2 : FInv c2) by (unfold c2; destruct (aBest a); [apply FInv_keepBest|]; exact I1).
    assert (S2 : cStep c2 = REASSEMBLE_SOLUTION) by (unfold c2; destruct (aBest a); exact SC).
    clearbody c2. clear I1 SC c1.
    assert (CV : FInv (nextStage (goto CONVERGENCE_TEST c2))).
    { rewrite <- (withSys_id c2) at 1. destruct I2 as (P & I2).
      apply FInv_nextStage; [exact P|]. destruct (cStage c2) as [|k n]; [apply I2|].
      destruct I2 as (F & O & _ & B & PO). auto. }
    destruct (aTight a); [injection E as <- <-; exact CV|].
    destruct (ITERMX <? iterQuad c2).
    + destruct (aLoose a); [injection E as <- <-; exact CV|].
      destruct (acceptable c2) eqn:AC.
      * injection E as <- <-. destruct I2 as (P & I2). rewrite S2 in I2.
        destruct (cStage c2) as [|k n] eqn:G.
        { destruct I2 as (_ & B). destruct (B eq_refl AC). apply FInv_nextStage; [assumption|]. rewrite G. assumption. }
        { destruct I2 as (F & O & _ & B & PO). destruct (B AC). apply FInv_nextStage; [assumption|]. rewrite G. auto. }
      * injection E as <- <-. destruct OK; discriminate.
    + injection E as <- <-. eapply FInv_quad; [exact I2|rewrite S2; reflexivity|reflexivity|reflexivity|auto|reflexivity|reflexivity|reflexivity|apply I2].
  - set (c2 := match aLin a with Some z => withStat (linCode z) c1 | None => c1 end) in E.
    assert (I2 : FInv c2) by (unfold c2; destruct (aLin a); exact I1).
    assert (S2 : cStep c2 = LINEAR_SEARCH) by (unfold c2; destruct (aLin a); exact SC).
    assert (Y2 : sys c2 = sys c1) by (unfold c2; destruct (aLin a); reflexivity).
    rewrite <- Y2 in E. clearbody c2. clear I1 SC Y2 c1.
    destruct (anyActive (sys c2)); destruct (_ && aOptimal a).
    1, 3: injection E as <- <-; destruct I2 as (P & I2);
      (apply FInv_nextStage; [exact P|]); cbn [cStage withData acceptable best pathOld];
      (destruct (cStage c2) as [|k n]; [apply I2|]); destruct I2 as (F & O & _ & B & PO); auto.
    1, 2: injection E as <- <-; eapply FInv_quad; [exact I2|rewrite S2; reflexivity|reflexivity|reflexivity|auto|reflexivity|reflexivity|reflexivity|apply I2].
  - set (c2 := goto _ c1) in E.
    assert (I2 : FInv c2 /\ quadStep (cStep c2) = true).
    { assert (QS : quadStep (cStep c2) = true) by (unfold c2; cbn; destruct (_ || _); reflexivity).
      split; [|exact QS].
      eapply FInv_quad; [exact I1|rewrite SC; reflexivity|exact QS|reflexivity|auto|reflexivity|reflexivity|reflexivity|apply I1]. }
    assert (Y2 : sys c2 = sys c1) by reflexivity. rewrite <- Y2 in E.
    set (hl := liquid (sys c2)) in E. clearbody hl. clearbody c2. clear I1 SC Y2 c1.
    set (d := Nat.min _ _) in E.
    set (c3 := if Nat.eqb d 0 then c2 else _) in E.
    assert (I3 : FInv c3 /\ quadStep (cStep c3) = true).
    { unfold c3. destruct (Nat.eqb d 0); [exact I2|]. split; [|reflexivity].
      eapply FInv_quad; [exact (proj1 I2)|exact (proj2 I2)|reflexivity|reflexivity|cbn; discriminate|reflexivity|reflexivity| |].
      - intros x. cbn [withSys sys goto restart withSuper]. rewrite flag_release. reflexivity.
      - cbn [withSys sys goto restart withSuper]. apply okPath_release. apply (proj1 I2). }
    clearbody c3. clear I2 d c2.
    set (e := if _ : bool then _ else O) in E.
    set (c4 := if Nat.eqb e 0 then c3 else _) in E.
    assert (I4 : FInv c4 /\ quadStep (cStep c4) = true).
    { unfold c4. destruct (Nat.eqb e 0); [exact I3|]. split; [|reflexivity].
      eapply FInv_quad; [exact (proj1 I3)|exact (proj2 I3)|reflexivity|reflexivity|cbn; discriminate|reflexivity|reflexivity|reflexivity|apply (proj1 I3)]. }
    clearbody c4. clear I3 e c3.
    destruct (hl && aLiqGone a); injection E as <- <-; [|apply I4].
    eapply FInv_quad; [exact (proj1 I4)|exact (proj2 I4)|reflexivity|reflexivity|cbn; discriminate|reflexivity|reflexivity|reflexivity|apply (proj1 I4)].
  - injection E as <- <-. eapply FInv_outer; [exact I1|rewrite SC; reflexivity|reflexivity|discriminate|reflexivity|apply I1].
  - destruct (aSuper a).
    { injection E as <- <-. eapply FInv_outer; [exact I1|rewrite SC; reflexivity|reflexivity|discriminate|reflexivity|apply I1]. }
    destruct (aCoexSol a).
    { injection E as <- <-. eapply FInv_outer; [exact I1|rewrite SC; reflexivity|reflexivity|reflexivity| |].
      - intros x. cbn [withSys sys goto restart withSuper]. rewrite flag_release. reflexivity.
      - cbn [withSys sys goto restart withSuper]. apply okPath_release. apply I1. }
    destruct (_ && aCoexLiq a); injection E as <- <-;
      (eapply FInv_outer; [exact I1|rewrite SC; reflexivity|reflexivity| |reflexivity|apply I1]); cbn; congruence.
  - injection E as <- <-. eapply FInv_outer; [exact I1|rewrite SC; reflexivity|reflexivity|discriminate|reflexivity|apply I1].
  - injection E as <- <-. eapply FInv_outer; [exact I1|rewrite SC; reflexivity|reflexivity|discriminate|reflexivity|apply I1].
Qed.

End Flags.

(** The call that returns true goes back to the start. *)
Lemma silmin_true : forall i a c c', silmin i a c = (true, c') -> cStep c' = CHANGE_COMPOSITION.
Proof.
  intros i a c c' E. unfold silmin in E.
  set (c1 := if i =? 0 then _ else _) in E. clearbody c1. cbv zeta in E.
  destruct (cStep c1); try discriminate.
  - destruct (superSat c1); [|discriminate]. destruct (aAddFail a); [|discriminate].
    injection E as <-. reflexivity.
  - destruct (aTight a); [discriminate|]. destruct (ITERMX <? _); [|discriminate].
    destruct (aLoose a); [discriminate|]. destruct (acceptable _); [discriminate|].
    injection E as <-. reflexivity.
  - destruct (_ && _); discriminate.
  - destruct (aSuper a); [discriminate|]. destruct (aCoexSol a); [discriminate|].
    destruct (_ && _); discriminate.
  - injection E as <-. reflexivity.
Qed.

Theorem C60_constraints_survive : forall i c c',
  fresh c -> Until i c c' -> stat c' = SILMIN_SUCCESS ->
  (forall k, flag (sys c') k = flag (sys c) k) /\
  (path (sys c') = path (sys c) \/ path (sys c') = FO2_NONE) /\
  fresh c'.
Proof.
  intros i c c' Fr U OK.
  assert (I : FInv (flag (sys c)) (path (sys c)) c).
  { destruct Fr as [G S]. split; [left; reflexivity|]. rewrite G, S. split; [intros x; reflexivity|discriminate]. }
  assert (Z0 : i = 0 -> fresh c) by auto.
  set (f0 := flag (sys c)) in *. set (q := path (sys c)) in *. clearbody f0 q. clear Fr.
  induction U as [i a c c' E|i a c c1 j c' E NZ U IH].
  - pose proof (FInv_silmin f0 q i a c true c' I Z0 E (or_intror OK)) as (P & J).
    pose proof (silmin_true _ _ _ _ E) as S. unfold fresh. rewrite S in J |- *.
    destruct (cStage c') as [|k n].
    + destruct J as (J & _). split; [exact J|]. split; [exact P|]. auto.
    + destruct J as (_ & _ & J & _). discriminate.
  - apply IH; [exact OK| |intros; congruence].
    apply (FInv_silmin f0 q i a c false c1 I Z0 E). left. reflexivity.
Qed.

(** Without liquid-free buffering trouble the buffer itself survives too. *)
Theorem C60_buffer_survives : forall i c c',
  fresh c -> path (sys c) = FO2_NONE -> Until i c c' -> stat c' = SILMIN_SUCCESS ->
  path (sys c') = FO2_NONE.
Proof.
  intros i c c' F P U S. destruct (C60_constraints_survive i c c' F U S) as (_ & [Q|Q] & _); congruence.
Qed.

(** * C60 fails after a failed or stopped run. *)

Definition noSys : Sys := mkSys (fun _ => false) (fun _ => false) FO2_NONE true 2 1 false 0.
Definition quiet : Ans :=
  mkAns true false false None false true false false false false None false 0 0 false false false 2 true 0 0.
Definition converge : Ans :=
  mkAns true false false None false true false true true true None false 0 0 false false false 2 true 0 0.

(** A run at constant enthalpy on buffer 5 (reference value known). *)
Definition runA : Ctl :=
  mkCtl CHANGE_COMPOSITION Pre 0 false noSys false FO2_NONE
        (setPath 5 (setRef (fun _ => true) (setFlag KH true noSys))) NO_STATUS false 0.
Definition numbered (i : Z) (l : list Ans) : list (Z * Ans) :=
  combine (i :: map (fun n => Z.of_nat (S n)) (seq 0 (length l))) l.

(** The first stage ends because the potential has stopped changing, the
    second never converges: the run fails. *)
Definition optimal : Ans :=
  mkAns true false false None false true false false false false None true 0 0 false false false 2 true 0 0.
Definition failedA : Ctl :=
  calls (numbered 0 (repeat quiet 44 ++ [optimal] ++ repeat quiet 705)) runA.

(** The user then sets up another system: constant temperature, buffer 3
    (CreateSilminState, SetMode, SetFO2Path), and starts again with
    calc_index 0. *)
Definition runB : Ctl := withStat NO_STATUS (withSys (setPath 3 noSys) failedA).
Definition endB : Ctl := calls (numbered 0 (repeat converge 18)) runB.

Theorem C60_refuted_after_failure :
  (* run A failed to converge and returned *)
  stat failedA = SILMIN_QUAD_MAX /\ cStep failedA = CHANGE_COMPOSITION /\
  (* run B asks for constant temperature and buffer 3, and succeeds *)
  (forall k, flag (sys runB) k = false) /\ path (sys runB) = 3 /\
  stat endB = SILMIN_SUCCESS /\ cStep endB = CHANGE_COMPOSITION /\
  (* but it was computed on buffer 5, and enthalpy is now held constant *)
  path (sys endB) = 5 /\ flag (sys endB) KH = true.
Proof. vm_compute. repeat split. Qed.

(** A case for C60: constant enthalpy on a buffer, through all three stages. *)
Fixpoint runUntil (l : list (Z * Ans)) (c : Ctl) : option Ctl :=
  match l with
  | [] => None
  | (i, a) :: l => let r := silmin i a c in if fst r then Some (snd r) else runUntil l (snd r)
  end.
Lemma runUntil_Until : forall l i a c c', (forall x, In x l -> fst x <> 0) ->
  runUntil ((i, a) :: l) c = Some c' -> Until i c c'.
Proof.
  induction l as [|[j b] l IH]; intros i a c c' N E; cbn [runUntil] in E.
  - destruct (silmin i a c) as [[] d] eqn:S; cbn in E; [injection E as <-; apply (UNow i a c d S)|discriminate].
  - destruct (silmin i a c) as [[] d] eqn:S; cbn [fst snd] in E; [injection E as <-; apply (UNow i a c d S)|].
    apply (ULater i a c d j c' S); [apply (N (j, b)); left; reflexivity|].
    apply (IH j b d c'); [intros x Hx; apply N; right; exact Hx|exact E].
Qed.

Theorem C60_case : exists c', fresh runA /\ Until 0 runA c' /\ stat c' = SILMIN_SUCCESS /\
  flag (sys c') KH = true /\ path (sys c') = 5.
Proof.
  destruct (runUntil (numbered 0 (repeat converge 30)) runA) as [c'|] eqn:E; [|vm_compute in E; discriminate].
  exists c'. split; [split; reflexivity|]. split.
  - apply (runUntil_Until (numbered 1 (repeat converge 29)) 0 converge).
    + intros x Hx. cbn in Hx. repeat (destruct Hx as [<-|Hx]; [discriminate|]). contradiction.
    + rewrite <- E. vm_compute. reflexivity.
  - vm_compute in E. injection E as <-. repeat split.
Qed.
