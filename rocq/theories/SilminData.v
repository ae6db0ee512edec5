(** What a reported result was computed from: the end-member tables belong to
    the temperature and pressure of the result (C63), and a success at
    constant enthalpy comes from a converged minimisation with the enthalpy
    imposed (C64). *)
From Coq Require Import List ZArith Bool Lia.
From Verif Require Import EquilModel EquilProps SilminModel SilminProps SilminRun.
Import ListNotations.
Open Scope Z_scope.

(** * C63 *)

(** Neither enthalpy nor entropy nor volume is prescribed. *)
Definition plain (s : Sys) : Prop := forall k, flag s k = false.

(** A session of such runs: from the start, or after an equilibration ended,
    the user or the increments may change the system in any way; otherwise
    the solver is called until it says it has ended, index 0 only at the
    beginning of an equilibration. *)
Inductive Session : Ctl -> Prop :=
| SStart : forall c, fresh c -> plain (sys c) -> Session c
| SCall : forall i a c, Session c -> (i = 0 -> cStep c = CHANGE_COMPOSITION) -> Session (snd (silmin i a c))
| SNew : forall s c, Session c -> cStep c = CHANGE_COMPOSITION -> plain s -> Session (withSys s c).

Definition early (p : Step) : bool := match p with CHANGE_COMPOSITION | CHANGE_TP => true | _ => false end.

Definition DI (c : Ctl) : Prop :=
  plain (sys c) /\ cStage c = Pre /\
  (quadStep (cStep c) = true -> acceptable c = true -> plain (best c) /\ cond (best c) = cond (sys c)) /\
  (early (cStep c) = false -> data c = cond (sys c)).

Lemma plain_release : forall a s, plain s -> plain (maybeRelease a s).
Proof. intros a s P k. rewrite flag_release. apply P. Qed.
Lemma cond_release : forall a s, cond (maybeRelease a s) = cond s.
Proof. intros a s. unfold maybeRelease. destruct (_ && _); reflexivity. Qed.
Lemma plain_active : forall s, plain s -> anyActive s = false.
Proof. intros s P. unfold anyActive, active. rewrite !P. reflexivity. Qed.

Lemma DI_enter : forall c, plain (sys c) -> cStage c = Pre -> enterStage c = c.
Proof.
  intros c P G. unfold enterStage, active. rewrite G, !P. cbn. destruct (negb _); reflexivity.
Qed.
Lemma DI_next : forall c, cStage c = Pre -> nextStage c = c.
Proof. intros c G. unfold nextStage. rewrite G. reflexivity. Qed.

Lemma DI_call : forall i a c, DI c -> (i = 0 -> cStep c = CHANGE_COMPOSITION) -> DI (snd (silmin i a c)).
Proof.
  intros i a c D I. unfold silmin. fold (begun i c).
  assert (D1 : DI (begun i c)).
  { unfold begun. destruct (Z.eqb_spec i 0) as [Z|Z]; [|exact D]. specialize (I Z).
    destruct D as (P & G & B & E). unfold DI. cbn. repeat split; auto; discriminate. }
  set (c1 := begun i c) in *. clearbody c1. clear c I D. destruct D1 as (P & G & B & E). cbv zeta.
  pose proof (plain_active _ P) as NA.
  destruct (cStep c1) eqn:SC; cbn [quadStep early] in B, E.
  - unfold DI; cbn. repeat split; auto; discriminate.
  - cbn [snd]. set (s' := if _ && _ then _ else _).
    assert (P' : plain s') by (unfold s'; destruct (_ && _); [exact P|apply plain_release, P]).
    unfold DI; cbn. repeat split; auto; discriminate.
  - unfold DI; cbn. repeat split; auto; discriminate.
  - destruct (superSat c1); [destruct (aAddFail a)|].
    + unfold DI; cbn. repeat split; auto; discriminate.
    + unfold DI; cbn [snd goto restart withSys sys cStage cStep acceptable data]. split; [|split; [exact G|split]].
      * apply plain_release. destruct (aAddLiquid a); exact P.
      * discriminate.
      * intros _. rewrite cond_release. rewrite E by reflexivity. destruct (aAddLiquid a); reflexivity.
    + unfold DI; cbn. repeat split; auto; discriminate.
  - cbn [snd]. rewrite DI_enter by assumption. unfold DI; cbn. repeat split; auto; try (intros; apply B; auto).
  - unfold DI; cbn. repeat split; auto; try (intros; apply B; auto).
  - unfold DI; cbn. repeat split; auto; try (intros; apply B; auto).
  - rewrite NA. destruct (aFull a); [destruct (aRank a)|]; unfold DI; cbn; repeat split; auto; try (intros; apply B; auto).
  - set (c2 := if aBest a then _ else _).
    assert (A : plain (sys c2) /\ cStage c2 = Pre /\ (acceptable c2 = true -> plain (best c2) /\ cond (best c2) = cond (sys c2)) /\
                data c2 = cond (sys c2)).
    { unfold c2. destruct (aBest a); cbn; repeat split; auto; apply B; auto. }
    clearbody c2. destruct A as (A1 & A2 & A3 & A4).
    assert (X : DI (goto CONVERGENCE_TEST c2)) by (unfold DI; cbn; repeat split; auto; discriminate).
    destruct (aTight a); [cbn [snd]; rewrite DI_next by exact A2; exact X|].
    destruct (ITERMX <? _).
    + destruct (aLoose a); [cbn [snd]; rewrite DI_next by exact A2; exact X|].
      destruct (acceptable c2).
      * cbn [snd]. rewrite DI_next by exact A2. destruct (A3 eq_refl) as [B1 B2].
        unfold DI; cbn. repeat split; auto; try discriminate. intros _. congruence.
      * unfold DI; cbn. repeat split; auto; discriminate.
    + unfold DI; cbn. repeat split; auto; intros; apply A3; auto.
  - rewrite NA. set (c2 := match aLin a with Some _ => _ | None => _ end).
    assert (A : cStage c2 = Pre /\ acceptable c2 = acceptable c1 /\ best c2 = best c1 /\ data c2 = data c1).
    { unfold c2. destruct (aLin a); auto. }
    clearbody c2. destruct A as (A1 & A2 & A3 & A4).
    destruct (_ && aOptimal a); cbn [snd].
    + rewrite DI_next by exact A1. unfold DI; cbn. repeat split; auto; try discriminate. intros _. rewrite A4. auto.
    + unfold DI; cbn. rewrite A2, A3, A4. repeat split; auto; intros; apply B; auto.
  - cbn [snd]. set (hl := liquid (sys c1)). set (c2 := goto _ c1).
    assert (D2 : DI c2 /\ quadStep (cStep c2) = true /\ early (cStep c2) = false).
    { unfold c2. destruct (_ || _); unfold DI; cbn; repeat split; auto; intros; apply B; auto. }
    change (sys c1) with (sys c2).
    clearbody hl c2. clear P G B E NA SC c1.
    assert (DR : forall c s, DI c /\ quadStep (cStep c) = true /\ early (cStep c) = false -> plain s -> cond s = cond (sys c) ->
      let x := restart (goto PROJECT_CONSTRAINTS (withSys s c)) in DI x /\ quadStep (cStep x) = true /\ early (cStep x) = false).
    { intros c s ((P & G & B & E) & _ & Y) Ps Cs. cbn. unfold DI; cbn. rewrite Cs. repeat split; auto; discriminate. }
    set (d := Nat.min _ _).
    set (c3 := if Nat.eqb d 0 then c2 else _).
    assert (D3 : DI c3 /\ quadStep (cStep c3) = true /\ early (cStep c3) = false).
    { unfold c3. destruct (Nat.eqb d 0); [exact D2|]. apply DR; [exact D2| |].
      - apply plain_release. apply (proj1 D2).
      - rewrite cond_release. reflexivity. }
    clearbody c3. clear D2 d c2.
    set (e := if hl && _ && _ then _ else O).
    set (c4 := if Nat.eqb e 0 then c3 else _).
    assert (D4 : DI c4 /\ quadStep (cStep c4) = true /\ early (cStep c4) = false).
    { unfold c4. destruct (Nat.eqb e 0); [exact D3|]. apply DR; [exact D3|apply (proj1 D3)|reflexivity]. }
    clearbody c4. clear D3 e c3.
    destruct (hl && aLiqGone a); [|apply D4]. apply DR; [exact D4|apply (proj1 D4)|reflexivity].
  - unfold DI; cbn. repeat split; auto; discriminate.
  - destruct (aSuper a); [unfold DI; cbn; repeat split; auto; discriminate|].
    destruct (aCoexSol a).
    { unfold DI; cbn [snd restart goto withSuper withSys sys cStage cStep acceptable data]. split; [|split; [exact G|split]].
      - apply plain_release, P.
      - discriminate.
      - intros _. rewrite cond_release. apply E. reflexivity. }
    destruct (_ && aCoexLiq a); unfold DI; cbn; repeat split; auto; discriminate.
  - unfold DI; cbn. repeat split; auto; discriminate.
  - unfold DI; cbn. repeat split; auto; discriminate.
Qed.

Theorem C63_data_belong_partial : forall i a c,
  Session c -> (i = 0 -> cStep c = CHANGE_COMPOSITION) ->
  readyOut (snd (silmin i a c)) = true ->
  data (snd (silmin i a c)) = cond (sys (snd (silmin i a c))).
Proof.
  intros i a c Se I R.
  assert (D : DI c).
  { clear I R i a. induction Se as [c F P|i a c Se IH I|s c Se IH S P].
    - destruct F as [F1 F2]. unfold DI. rewrite F1, F2. repeat split; auto; discriminate.
    - apply DI_call; assumption.
    - destruct IH as (_ & G & _ & _). unfold DI; cbn. rewrite S. repeat split; auto; discriminate. }
  destruct (DI_call i a c D I) as (_ & _ & _ & E). apply E.
  apply ready_iff in R. unfold here in R. destruct (Z.eqb_spec i 0) as [Z|Z]; [discriminate|].
  unfold silmin. destruct (Z.eqb_spec i 0); [contradiction|]. cbn [cStep withReady]. rewrite R. reflexivity.
Qed.
(** the same as a property of its own (C113) *)
Theorem C113_data_belong : forall i a c,
  Session c -> (i = 0 -> cStep c = CHANGE_COMPOSITION) ->
  readyOut (snd (silmin i a c)) = true ->
  data (snd (silmin i a c)) = cond (sys (snd (silmin i a c))).
Proof. exact C63_data_belong_partial. Qed.

(** It fails at constant enthalpy: the best iterate is put back with its
    temperature, but the tables stay those of the last iterate. *)
Definition moved (t : Z) (best : bool) : Ans :=
  mkAns true false false None false true false best false false None false 0 0 false false false 2 true t t.
Definition runH : Ctl :=
  mkCtl CHANGE_COMPOSITION Pre 0 false noSys false FO2_NONE
        (setCond 1200 (setRef (fun _ => true) (setFlag KH true noSys))) NO_STATUS false 1200.
Definition answersH : list Ans :=
  repeat (moved 1100 true) 11                        (* a good first iterate *)
  ++ repeat (moved 1150 false) 700                   (* then T moves on, without convergence *)
  ++ [quiet; quiet; quiet].
Definition outH : Ctl := calls (firstn 712 (numbered 0 answersH)) runH.
Definition endH : Ctl := calls (firstn 713 (numbered 0 answersH)) runH.

Theorem C63_refuted_constant_enthalpy :
  fresh runH /\ data runH = cond (sys runH) /\
  (* a result is reported, and the equilibration is a success *)
  readyOut outH = true /\ fst (silmin 712 quiet outH) = true /\ stat endH = SILMIN_SUCCESS /\
  (* at 1200, while the tables were computed at 1150 *)
  cond (sys outH) = 1200 /\ data outH = 1150.
Proof. vm_compute. repeat split. Qed.

(** It fails when a stopped run is resumed at another temperature and stopped
    again: the tables are still those of the old temperature. *)
Definition stopBoth (m : Mach Live) : Mach Live := stop2 Live (stop1 Live m).
Definition again (t : Z) (m : Mach Live) : Mach Live :=
  atPc Live PInit (setSol Live (liveIncr (setCond t) (sol Live m)) m).
Definition coldStart : Mach Live :=
  mkMach Live PInit
    (mkCtl CHANGE_COMPOSITION Pre 0 false noSys false FO2_NONE (setCond 1200 noSys) NO_STATUS false 0, fun _ => converge)
    4 0 false 0 0 [] false false [].
Definition cool (s : Sys) : Sys := setCond (cond s - 10) s.

Definition stopped1 : Mach Live := liveIterate cool 12 (stopBoth (liveIterate cool 91 coldStart)).
Definition stopped2 : Mach Live := liveIterate cool 12 (stopBoth (liveIterate cool 45 (again 900 stopped1))).

Theorem C63_refuted_resumed :
  (* three steps from 1200 downwards: the first result is saved, and during
     the second equilibration the user stops the run, which returns *)
  pc Live stopped1 = PDone true /\ length (steps Live stopped1) = 1%nat /\
  (* the user sets the temperature to 900, starts again, stops again: a
     second result is saved *)
  pc Live stopped2 = PDone false /\ length (steps Live stopped2) = 2%nat /\
  (* it is labelled 900, but the tables are those of 1190 *)
  map (fun x => (cond (sys (fst (fst x))), data (fst (fst x)))) (steps Live stopped2) = [(900, 1190); (1200, 1200)].
Proof. vm_compute. repeat split. Qed.

(** A case for the theorem: an isothermal run reports its result. *)
Theorem C63_case : exists l i a c, Session c /\ c = calls l (fst (sol Live coldStart)) /\ i <> 0 /\
  readyOut (snd (silmin i a c)) = true /\ cond (sys (snd (silmin i a c))) = 1200.
Proof.
  exists (numbered 0 (repeat converge 11)), 11, converge, (calls (numbered 0 (repeat converge 11)) (fst (sol Live coldStart))).
  split; [|vm_compute; repeat split; discriminate].
  change (calls (numbered 0 (repeat converge 11)) (fst (sol Live coldStart))) with
   (snd (silmin 10 converge (snd (silmin 9 converge (snd (silmin 8 converge (snd (silmin 7 converge
    (snd (silmin 6 converge (snd (silmin 5 converge (snd (silmin 4 converge (snd (silmin 3 converge
    (snd (silmin 2 converge (snd (silmin 1 converge (snd (silmin 0 converge (fst (sol Live coldStart)))))))))))))))))))))))).
  do 10 (apply SCall; [|discriminate]). apply SCall; [|reflexivity]. apply SStart; [split; reflexivity|]. intros k; reflexivity.
Qed.

(** * C64 *)

(** None of the convergence criteria is met. *)
Definition noConvergence (a : Ans) : Prop :=
  aBest a = false /\ aTight a = false /\ aLoose a = false /\ aOptimal a = false.

(** The calls made so far have all asked to be called again. *)
Fixpoint noneEnded (l : list (Z * Ans)) (c : Ctl) : Prop :=
  match l with
  | [] => True
  | (i, a) :: l => fst (silmin i a c) = false /\ noneEnded l (snd (silmin i a c))
  end.

(** A minimisation that starts afresh and never converges is never taken for
    converged: it goes on until it gives up with an error. *)
Lemma quiet_call : forall i a c, i <> 0 -> quadStep (cStep c) = true -> acceptable c = false -> noConvergence a ->
  (fst (silmin i a c) = true /\ stat (snd (silmin i a c)) = SILMIN_QUAD_MAX) \/
  (fst (silmin i a c) = false /\ quadStep (cStep (snd (silmin i a c))) = true /\ acceptable (snd (silmin i a c)) = false).
Proof.
  intros i a c I Q A (N1 & N2 & N3 & N4). unfold silmin. destruct (Z.eqb_spec i 0); [contradiction|]. cbv zeta.
  cbn [cStep withReady]. destruct (cStep c) eqn:SC; try discriminate.
  - right. cbn. repeat split. unfold enterStage. cbn [cStage withReady]. destruct (cStage c); [|exact A]. destruct (negb _); [|exact A].
    destruct (active KH _); [exact A|]. destruct (active KS _); [exact A|]. destruct (active KV _); exact A.
  - right. cbn. auto.
  - right. cbn. auto.
  - right. destruct (aFull a); [destruct (aRank a)|destruct (anyActive _)]; cbn; auto.
  - rewrite N1, N2, N3. cbn [acceptable withReady]. rewrite A. destruct (ITERMX <? _).
    + left. cbn. auto.
    + right. cbn. auto.
  - rewrite N4, andb_false_r. right. cbn. repeat split. destruct (aLin a); destruct (anyActive _); cbn; exact A.
  - right. cbn [fst snd]. split; [reflexivity|].
    set (hl := liquid (sys (withReady false c))). set (c2 := goto (if _ : bool then PROJECT_CONSTRAINTS else CONSTRUCT_QUADRATIC) _).
    assert (D2 : quadStep (cStep c2) = true /\ acceptable c2 = false)
      by (split; [unfold c2; cbn [cStep goto]; destruct (anyActive _ || _); reflexivity|exact A]).
    clearbody hl c2.
    set (d := Nat.min _ _). set (c3 := if Nat.eqb d 0 then c2 else _).
    assert (D3 : quadStep (cStep c3) = true /\ acceptable c3 = false) by (unfold c3; destruct (Nat.eqb d 0); [exact D2|split; reflexivity]).
    clearbody c3.
    set (e := if hl && _ && _ then _ else O). set (c4 := if Nat.eqb e 0 then c3 else _).
    assert (D4 : quadStep (cStep c4) = true /\ acceptable c4 = false) by (unfold c4; destruct (Nat.eqb e 0); [exact D3|split; reflexivity]).
    clearbody c4. destruct (hl && aLiqGone a); [split; reflexivity|exact D4].
Qed.

Theorem C64_no_false_convergence_partial : forall l i a c,
  quadStep (cStep c) = true -> acceptable c = false ->
  (forall x, In x ((i, a) :: l) -> fst x <> 0 /\ noConvergence (snd x)) ->
  noneEnded l c ->
  let c' := calls l c in
  quadStep (cStep c') = true /\
  (fst (silmin i a c') = true -> stat (snd (silmin i a c')) = SILMIN_QUAD_MAX).
Proof.
  intros l i a c Q A N E. cbv zeta.
  assert (X : quadStep (cStep (calls l c)) = true /\ acceptable (calls l c) = false).
  { assert (N' : forall x, In x l -> fst x <> 0 /\ noConvergence (snd x)) by (intros x Hx; apply N; right; exact Hx).
    clear N. revert c Q A E. induction l as [|[j b] l IH]; intros c Q A E; [auto|].
    destruct E as [E1 E2]. destruct (N' (j, b) (or_introl eq_refl)) as [J B]. cbn [fst snd] in J, B.
    destruct (quiet_call j b c J Q A B) as [[T _]|(_ & Q' & A')]; [congruence|].
    cbn [calls]. apply IH; auto. intros x Hx. apply N'. right. exact Hx. }
  destruct X as [X1 X2]. split; [exact X1|]. intros T.
  destruct (N (i, a) (or_introl eq_refl)) as [J B]. cbn [fst snd] in J, B.
  destruct (quiet_call i a (calls l c) J X1 X2 B) as [[_ S]|[F _]]; [exact S|congruence].
Qed.
(** the same as a property of its own (C114) *)
Theorem C114_no_false_convergence : forall l i a c,
  quadStep (cStep c) = true -> acceptable c = false ->
  (forall x, In x ((i, a) :: l) -> fst x <> 0 /\ noConvergence (snd x)) ->
  noneEnded l c ->
  let c' := calls l c in
  quadStep (cStep c') = true /\
  (fst (silmin i a c') = true -> stat (snd (silmin i a c')) = SILMIN_QUAD_MAX).
Proof. exact C64_no_false_convergence_partial. Qed.

(** It fails on a buffered path at constant enthalpy: the stage in which the
    enthalpy is imposed may fail to converge; then the state of the stage
    before is put back and the run goes on to success, with the temperature
    it started from. *)
Definition runS : Ctl := withSys (setCond 1200 (sys runA)) runA.
Definition callsS : list (Z * Ans) :=
  numbered 0 (repeat converge 9 ++ repeat (moved 1100 false) 705 ++ repeat converge 9).
Definition endS : Ctl := calls callsS runS.

Theorem C64_refuted_constant_enthalpy :
  fresh runS /\ flag (sys runS) KH = true /\ path (sys runS) = 5 /\ cond (sys runS) = 1200 /\
  (* success, with the same constraints as asked for *)
  stat endS = SILMIN_SUCCESS /\ cStep endS = CHANGE_COMPOSITION /\ flag (sys endS) KH = true /\ path (sys endS) = 5 /\
  (* whenever the enthalpy was imposed nothing converged, and every step of
     that stage moved the temperature to 1100 *)
  (forall n, (n < length callsS)%nat -> flag (sys (calls (firstn n callsS) runS)) KH = true ->
     quadStep (cStep (calls (firstn n callsS) runS)) = true -> cStage (calls (firstn n callsS) runS) <> Pre ->
     let a := snd (nth n callsS (0, quiet)) in noConvergence a /\ aCond a = 1100) /\
  (* the result has the temperature of the beginning *)
  cond (sys endS) = 1200.
Proof.
  assert (L : forallb (fun n => let c := calls (firstn n callsS) runS in
     negb (flag (sys c) KH && quadStep (cStep c) && match cStage c with Pre => false | _ => true end)
     || (let a := snd (nth n callsS (0, quiet)) in
         negb (aBest a) && negb (aTight a) && negb (aLoose a) && negb (aOptimal a) && (aCond a =? 1100)))
     (seq 0 (length callsS)) = true) by (vm_compute; reflexivity).
  repeat split; try (vm_compute; reflexivity).
  all: intros; rewrite forallb_forall in L; specialize (L n); rewrite in_seq in L; specialize (L ltac:(lia)); cbv zeta in L;
    match goal with F : flag _ KH = true, Q : quadStep _ = true, G : cStage _ <> Pre |- _ =>
      rewrite F, Q in L; destruct (cStage _); [congruence|] end; cbn [andb negb orb] in L;
    rewrite !andb_true_iff, !negb_true_iff, Z.eqb_eq in L; try subst a; tauto.
Qed.
