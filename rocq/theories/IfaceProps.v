(** Entering a composition through the object of the graphical program, normalising it and setting its iron to an oxygen
    buffer: what the object shows is what the engine holds, and where it is not. *)
From Coq Require Import Reals Arith Lia Lra Bool ZArith.
From Verif Require Import MassModel MassSpec MassProofs RedoxModel RedoxProps Fo2Model SupplyModel SupplyProps IfaceModel.
Open Scope R_scope.

(** ** Specification: the calls a user makes before running, in any order and number *)
Inductive Cmd : Type :=
| CInit (v : Z) | CMode (k : Z) | CTP (t p : R) | CPath (k : Z) | COffset (d : R)
| CComp (c : nat -> R) | CNorm | CRedist (buffer : Z).

Section Spec.
Variable tab : Tab.
Variable coeff : nat -> R.
Variables iF2 iF3 : nat.
Variable capped : bool.
Definition issue (c : Cmd) (ob : Obj) : Answer :=
  match c with
  | CInit v => Accepted (initializeMelts v ob)
  | CMode k => setMode k ob
  | CTP t p => setInitialTP t p ob
  | CPath k => setFO2Path k ob
  | COffset d => setFO2Offset d ob
  | CComp c => Accepted (setComposition tab c ob)
  | CNorm => normalize tab ob
  | CRedist b => redistribute tab coeff iF2 iF3 capped b ob
  end.
(** an object that was initialised and configured, nothing having been run since *)
Inductive configured : Obj -> Prop :=
| cf_init v ob : engineOn ob = false -> configured (initializeMelts v ob)
| cf_accepted c ob ob' : configured ob -> issue c ob = Accepted ob' -> configured ob'
| cf_refused c ob ob' : configured ob -> issue c ob = Refused ob' -> configured ob'.
(** grams of an oxide that the engine holds, in all phases *)
Definition holdsGrams (ob : Obj) (o : nat) : R := amount tab (oxide tab o) (matter (node ob)) * omw tab o.
(** the engine holds exactly what the object shows, all of it as one liquid *)
Definition shows (ob : Obj) : Prop :=
  (forall o, (o < nc tab)%nat -> holdsGrams ob o = entered ob o) /\
  balanced tab (matter (node ob)) /\
  liquidMass (node ob) = sum (nc tab) (entered ob) /\
  nLiq (matter (node ob)) = 1%nat /\ (forall i, nSol (matter (node ob)) i = O).
End Spec.

Section P.
Variable tab : Tab.
Variable coeff : nat -> R.
Variables iF2 iF3 : nat.
Variable capped : bool.
Notation issue := (issue tab coeff iF2 iF3 capped).
Notation configured := (configured tab coeff iF2 iF3 capped).
Notation setComposition := (setComposition tab).
Notation normalize := (normalize tab).
Notation redistribute := (redistribute tab coeff iF2 iF3 capped).
Notation toRedox := (toRedox tab coeff iF2 iF3 capped).
Notation fO2of := (fO2of tab coeff iF2 iF3 capped).

(** everything except the composition is left alone *)
Definition sameSettings (a b : Obj) : Prop :=
  tpSet a = tpSet b /\ normSave a = normSave b /\ temp a = temp b /\ press a = press b /\ fo2Path a = fo2Path b /\
  fo2Delta a = fo2Delta b /\ isH a = isH b /\ isS a = isS b /\ isV a = isV b /\ version a = version b /\
  calcMode a = calcMode b /\ tables a = tables b /\ engineOn a = engineOn b.
Lemma setComposition_settings c ob : sameSettings (setComposition c ob) ob.
Proof. unfold sameSettings, IfaceModel.setComposition. cbn. repeat split. Qed.

Lemma fresh_emptied : nLiq (matter emptyNode) = 1%nat /\ forall i, nSol (matter emptyNode) i = O.
Proof. split; reflexivity. Qed.

(** one liquid and no solids, whatever is issued *)
Definition unrun (ob : Obj) : Prop :=
  nLiq (matter (node ob)) = 1%nat /\ (forall i, nSol (matter (node ob)) i = O) /\ engineOn ob = false.
Lemma unrun_setComposition c ob : unrun ob -> unrun (setComposition c ob).
Proof.
  intros (A & B & C). unfold unrun, IfaceModel.setComposition. cbn [node engineOn].
  destruct (supplyFresh_frame tab c (node ob)) as (F1 & F2 & _). rewrite F1, F2. auto.
Qed.
Lemma unrun_issue c ob : unrun ob -> forall ob', issue c ob = Accepted ob' \/ issue c ob = Refused ob' -> unrun ob'.
Proof.
  intros U ob' H. destruct c as [v|k|t p|k|d|c| |b]; cbn [IfaceProps.issue] in H.
  - destruct H as [H|H]; inversion H. destruct U as (_ & _ & C). split; [reflexivity|]. split; [reflexivity|exact C].
  - unfold setMode in H. destruct H as [H|H]; inversion H. destruct k as [|[[|[]|]|[|[]|]|]|]; exact U.
  - destruct H as [H|H]; inversion H. exact U.
  - unfold setFO2Path in H. destruct (Z.ltb k 0 || Z.ltb 19 k)%bool; destruct H as [H|H]; inversion H; subst; exact U.
  - unfold setFO2Offset in H.
    destruct (Z.ltb (fo2Path ob) 0 || Z.ltb 19 (fo2Path ob) || Z.eqb (fo2Path ob) 0)%bool; destruct H as [H|H]; inversion H; subst; exact U.
  - destruct H as [H|H]; inversion H. now apply unrun_setComposition.
  - unfold IfaceModel.normalize in H. destruct (negb (compSet ob)); [destruct H as [H|H]; inversion H; subst; exact U|].
    destruct (normSave ob); [|destruct H as [H|H]; inversion H; subst; exact U]. cbv zeta in H.
    destruct (Req_EM_T _ 0); [destruct H as [H|H]; inversion H|]. destruct H as [H|H]; inversion H. now apply unrun_setComposition.
  - unfold IfaceModel.redistribute in H. destruct (negb (compSet ob)); [destruct H as [H|H]; inversion H; subst; exact U|].
    destruct (Z.ltb (fo2Path ob) 1 || Z.ltb 19 (fo2Path ob))%bool; [destruct H as [H|H]; inversion H; subst; exact U|].
    destruct (Req_EM_T (press ob) 0); [destruct H as [H|H]; inversion H; subst; exact U|].
    destruct (Req_EM_T (temp ob) 0); [destruct H as [H|H]; inversion H; subst; exact U|].
    cbv zeta in H. destruct H as [H|H]; inversion H. now apply unrun_setComposition.
Qed.
Lemma configured_unrun ob : configured ob -> unrun ob.
Proof.
  induction 1 as [v ob E|c ob ob' H IH E|c ob ob' H IH E].
  - split; [reflexivity|]. split; [reflexivity|exact E].
  - exact (unrun_issue c ob IH ob' (or_introl E)).
  - exact (unrun_issue c ob IH ob' (or_intror E)).
Qed.

Section Tables.
Hypothesis Inv : invertible tab.
Hypothesis Mw : forall o, (o < nc tab)%nat -> omw tab o <> 0.

(** ** C203 *)
Lemma shows_setComposition c ob : unrun ob -> shows tab (setComposition c ob).
Proof.
  intros (A & B & _). destruct (supplyFresh_frame tab c (node ob)) as (F1 & F2 & _ & _ & F5).
  unfold shows, holdsGrams, balanced, IfaceModel.setComposition. cbn [node entered].
  split; [|split; [|split; [|split]]].
  - intros o Ho. rewrite supplyFresh_amount by auto. field. auto.
  - intros o Ho. rewrite supplyFresh_amount by auto. now apply F5.
  - reflexivity.
  - now rewrite F2.
  - intros i. now rewrite F1.
Qed.
Lemma shows_same ob ob' : matter (node ob') = matter (node ob) -> liquidMass (node ob') = liquidMass (node ob) ->
  entered ob' = entered ob -> shows tab ob -> shows tab ob'.
Proof. intros E1 E2 E3. unfold shows, holdsGrams. rewrite E1, E2, E3. auto. Qed.
Lemma shows_issue c ob : unrun ob -> (compSet ob = true -> shows tab ob) ->
  forall ob', issue c ob = Accepted ob' \/ issue c ob = Refused ob' -> compSet ob' = true -> shows tab ob'.
Proof.
  intros U S ob' H. destruct c as [v|k|t p|k|d|c| |b]; cbn [IfaceProps.issue] in H.
  - destruct H as [H|H]; inversion H. intros C. cbn in C. discriminate C.
  - unfold setMode in H. destruct H as [H|H]; inversion H. destruct k as [|[[|[]|]|[|[]|]|]|]; exact S.
  - destruct H as [H|H]; inversion H. exact S.
  - unfold setFO2Path in H. destruct (Z.ltb k 0 || Z.ltb 19 k)%bool; destruct H as [H|H]; inversion H; subst; [exact S|].
    intros C. cbn [compSet] in C. specialize (S C). exact S.
  - unfold setFO2Offset in H.
    destruct (Z.ltb (fo2Path ob) 0 || Z.ltb 19 (fo2Path ob) || Z.eqb (fo2Path ob) 0)%bool; destruct H as [H|H]; inversion H; subst; exact S.
  - destruct H as [H|H]; inversion H. intros _. now apply shows_setComposition.
  - unfold IfaceModel.normalize in H. destruct (negb (compSet ob)); [destruct H as [H|H]; inversion H; subst; exact S|].
    destruct (normSave ob); [|destruct H as [H|H]; inversion H; subst; exact S]. cbv zeta in H.
    destruct (Req_EM_T _ 0); [destruct H as [H|H]; inversion H|]. destruct H as [H|H]; inversion H. intros _. now apply shows_setComposition.
  - unfold IfaceModel.redistribute in H. destruct (negb (compSet ob)); [destruct H as [H|H]; inversion H; subst; exact S|].
    destruct (Z.ltb (fo2Path ob) 1 || Z.ltb 19 (fo2Path ob))%bool; [destruct H as [H|H]; inversion H; subst; exact S|].
    destruct (Req_EM_T (press ob) 0); [destruct H as [H|H]; inversion H; subst; exact S|].
    destruct (Req_EM_T (temp ob) 0); [destruct H as [H|H]; inversion H; subst; exact S|].
    cbv zeta in H. destruct H as [H|H]; inversion H. intros _. now apply shows_setComposition.
Qed.
Theorem C203_shows : forall ob, configured ob -> compSet ob = true -> shows tab ob.
Proof.
  intros ob C. induction C as [v ob E|c ob ob' H IH E|c ob ob' H IH E].
  - intros K. cbn in K. discriminate K.
  - exact (shows_issue c ob (configured_unrun ob H) IH ob' (or_introl E)).
  - exact (shows_issue c ob (configured_unrun ob H) IH ob' (or_intror E)).
Qed.
(** the last composition entered is the one, whatever was entered, normalised or redistributed before *)
Theorem C203_last : forall ob c, configured ob ->
  shows tab (setComposition c ob) /\ entered (setComposition c ob) = c /\ total (setComposition c ob) = sum 20 c /\
  sameSettings (setComposition c ob) ob.
Proof.
  intros ob c C. split; [apply shows_setComposition; now apply configured_unrun|]. split; [reflexivity|].
  split; [|apply setComposition_settings]. unfold IfaceModel.setComposition. cbn [total]. rewrite (loop_addR 20 c). ring.
Qed.
End Tables.

(** ** C205: normalising *)
Theorem C205_normalised : forall ob, compSet ob = true -> normSave ob = true -> sum 20 (entered ob) <> 0 ->
  exists ob', normalize ob = Accepted ob' /\ sum 20 (entered ob') = 100 /\ total ob' = 100 /\
    (forall i, entered ob' i = entered ob i * (100 / sum 20 (entered ob))) /\ sameSettings ob' ob /\
    exists ob'', normalize ob' = Accepted ob'' /\ forall i, entered ob'' i = entered ob' i.
Proof.
  intros ob C N S.
  assert (K : forall o, compSet o = true -> normSave o = true -> sum 20 (entered o) <> 0 ->
    normalize o = Accepted (setComposition (fun i => entered o i / sum 20 (entered o) * 100) o)).
  { intros o Co No So. unfold IfaceModel.normalize. rewrite Co, No. cbn [negb]. cbv zeta.
    rewrite (loop_addR 20 (entered o)), Rplus_0_l. destruct (Req_EM_T (sum 20 (entered o)) 0); [contradiction|]. reflexivity. }
  assert (H : sum 20 (fun i => entered ob i / sum 20 (entered ob) * 100) = 100).
  { rewrite (sum_ext 20 _ (fun i => entered ob i * (100 / sum 20 (entered ob)))) by (intros; field; exact S).
    rewrite sum_scal_r. field. exact S. }
  eexists. split; [apply K; assumption|]. cbn [IfaceModel.setComposition entered total].
  split; [exact H|]. split; [rewrite (loop_addR 20 (fun i => entered ob i / sum 20 (entered ob) * 100)), Rplus_0_l; exact H|].
  split; [intros i; field; exact S|]. split; [apply setComposition_settings|].
  eexists. split; [apply K; [reflexivity|exact N|cbn [IfaceModel.setComposition entered]; rewrite H; lra]|].
  intros i. cbn [IfaceModel.setComposition entered]. rewrite H. field. exact S.
Qed.
(** switched off, it changes nothing; before a composition is entered it is refused *)
Theorem C205_off : forall ob, normSave ob = false -> normalize ob = Accepted ob \/ normalize ob = Refused ob.
Proof. intros ob N. unfold IfaceModel.normalize. rewrite N. destruct (negb (compSet ob)); auto. Qed.
Theorem C205_refused : forall ob, compSet ob = false -> normalize ob = Refused ob.
Proof. intros ob N. unfold IfaceModel.normalize. now rewrite N. Qed.
(** nothing entered but zeros: no numbers afterwards *)
Theorem C205_refuted : forall ob, compSet ob = true -> normSave ob = true -> (forall i, (i < 20)%nat -> entered ob i = 0) ->
  normalize ob = NotNumbers.
Proof.
  intros ob C N Z. unfold IfaceModel.normalize. rewrite C, N. cbn [negb]. cbv zeta. rewrite (loop_addR 20 (entered ob)), Rplus_0_l.
  rewrite (sum_0 20) by auto. destruct (Req_EM_T 0 0); [reflexivity|contradiction].
Qed.

(** ** C206: iron set to the buffer *)
Section Redox.
Hypothesis Dif : iF2 <> iF3.
Hypothesis L2 : (iF2 < nc tab)%nat.
Hypothesis L3 : (iF3 < nc tab)%nat.
Notation iron := (iron iF2 iF3).
Notation allFeO := (allFeO tab iF2 iF3).

Definition molesOf (c : nat -> R) (o : nat) : R := c o / omw tab o.

Lemma fO2of_ext t p a b : (forall i, (i < nc tab)%nat -> a i = b i) -> fO2of t p a = fO2of t p b.
Proof.
  intros E. unfold RedoxModel.fO2of. cbv zeta. rewrite (E iF2 L2), (E iF3 L3), (sum_ext (nc tab) a b) by exact E.
  destruct (Req_EM_T (b iF2) 0); [reflexivity|]. destruct (Req_EM_T (b iF3) 0); [reflexivity|].
  destruct (Req_EM_T (sum (nc tab) b + b iF3) 0); [reflexivity|].
  set (s := sum (nc tab) b + b iF3). rewrite (loop_addR (nc tab) (fun i => coeff i * a i / s)), (loop_addR (nc tab) (fun i => coeff i * b i / s)).
  rewrite (sum_ext (nc tab) (fun i => coeff i * a i / s) (fun i => coeff i * b i / s)) by (intros; now rewrite E). reflexivity.
Qed.
Lemma fO2of_scale t p k a : k <> 0 -> fO2of t p (fun i => k * a i) = fO2of t p a.
Proof.
  intros K. unfold RedoxModel.fO2of. cbv beta zeta. rewrite (sum_scal (nc tab) k a).
  replace (k * sum (nc tab) a + k * a iF3) with (k * (sum (nc tab) a + a iF3)) by ring.
  assert (Z1 : forall x, k * x = 0 -> x = 0). { intros x H. apply Rmult_integral in H. tauto. }
  assert (Z2 : forall x, x = 0 -> k * x = 0). { intros x ->. ring. }
  destruct (Req_EM_T (a iF2) 0) as [E|E], (Req_EM_T (k * a iF2) 0) as [E'|E']; [reflexivity|destruct (E' (Z2 _ E))|destruct (E (Z1 _ E'))|].
  destruct (Req_EM_T (a iF3) 0) as [F|F], (Req_EM_T (k * a iF3) 0) as [F'|F']; [reflexivity|destruct (F' (Z2 _ F))|destruct (F (Z1 _ F'))|].
  set (s := sum (nc tab) a + a iF3).
  destruct (Req_EM_T s 0) as [G|G], (Req_EM_T (k * s) 0) as [G'|G']; [reflexivity|destruct (G' (Z2 _ G))|destruct (G (Z1 _ G'))|].
  rewrite (loop_addR (nc tab) (fun i => coeff i * (k * a i) / (k * s))), (loop_addR (nc tab) (fun i => coeff i * a i / s)).
  rewrite (sum_ext (nc tab) (fun i => coeff i * (k * a i) / (k * s)) (fun i => coeff i * a i / s)) by (intros; field; auto).
  replace (k * a iF3 / (k * a iF2)) with (a iF3 / a iF2) by (field; auto).
  replace (2 * coeff iF2 * (k * a iF3) / (k * s)) with (2 * coeff iF2 * a iF3 / s) by (field; auto).
  replace (coeff iF3 * (k * a iF3) / (k * s)) with (coeff iF3 * a iF3 / s) by (field; auto). reflexivity.
Qed.

(** what is needed to call it: a composition, an oxygen constraint, a temperature and a pressure *)
Definition ready (ob : Obj) : Prop :=
  compSet ob = true /\ (1 <= fo2Path ob <= 19)%Z /\ press ob <> 0 /\ temp ob <> 0.
Theorem C206_refused : forall b ob, ~ ready ob -> redistribute b ob = Refused ob.
Proof.
  intros b ob N. unfold IfaceModel.redistribute, ready in *. destruct (compSet ob); cbn [negb]; [|reflexivity].
  destruct (Z.ltb_spec (fo2Path ob) 1); [reflexivity|]. destruct (Z.ltb_spec 19 (fo2Path ob)); [reflexivity|]. cbn [orb].
  destruct (Req_EM_T (press ob) 0); [reflexivity|]. destruct (Req_EM_T (temp ob) 0); [reflexivity|].
  exfalso. apply N. repeat split; auto.
Qed.

Lemma redistribute_eq b ob : ready ob ->
  redistribute b ob = Accepted
    (let m := toRedox (temp ob) (press ob) (bufferValue ob) (molesOf (entered ob)) in
     let c := fun j => if Nat.ltb j (nc tab) then m j * omw tab j else entered ob j in
     let tot := sum (nc tab) (fun j => m j * omw tab j) in
     setComposition (if normSave ob then if Req_EM_T tot 0 then c else fun j => c j / tot * 100 else c) ob).
Proof.
  intros (C & P & NP & NT). unfold IfaceModel.redistribute. rewrite C. cbn [negb].
  destruct (Z.ltb_spec (fo2Path ob) 1); [lia|]. destruct (Z.ltb_spec 19 (fo2Path ob)); [lia|]. cbn [orb].
  destruct (Req_EM_T (press ob) 0); [contradiction|]. destruct (Req_EM_T (temp ob) 0); [contradiction|].
  cbv zeta. fold (molesOf (entered ob)).
  rewrite (loop_addR (nc tab) (fun j => toRedox (temp ob) (press ob) (bufferValue ob) (molesOf (entered ob)) j * omw tab j)), Rplus_0_l.
  reflexivity.
Qed.

Hypothesis Mw : forall o, (o < nc tab)%nat -> 0 < omw tab o.
Theorem C206_redistributed : forall b ob, ready ob ->
  0 < iron (molesOf (entered ob)) -> allFeO (molesOf (entered ob)) <> 0 ->
  sum (nc tab) (fun j => toRedox (temp ob) (press ob) (bufferValue ob) (molesOf (entered ob)) j * omw tab j) <> 0 ->
  exists ob' k, redistribute b ob = Accepted ob' /\ k <> 0 /\ (normSave ob = false -> k = 1) /\
    (* every other oxide is kept, up to the common factor *)
    (forall o, o <> iF2 -> o <> iF3 -> entered ob' o = k * entered ob o) /\
    (* so is the iron *)
    iron (molesOf (entered ob')) = k * iron (molesOf (entered ob)) /\
    (* both oxides of iron are there in the proportion of the oxygen fugacity *)
    fO2of (temp ob) (press ob) (molesOf (entered ob')) = bufferValue ob /\
    (* and the oxides sum to 100 when normalising is on *)
    (normSave ob = true -> sum (nc tab) (entered ob') = 100) /\
    sameSettings ob' ob.
Proof.
  intros b ob Rd HI HA HS. rewrite (redistribute_eq b ob Rd). cbv zeta.
  set (m := toRedox (temp ob) (press ob) (bufferValue ob) (molesOf (entered ob))) in *.
  set (tot := sum (nc tab) (fun j => m j * omw tab j)) in *.
  set (k := if normSave ob then 100 / tot else 1).
  assert (K : k <> 0). { unfold k. destruct (normSave ob); [|lra]. unfold Rdiv. apply Rmult_integral_contrapositive. split; [lra|]. now apply Rinv_neq_0_compat. }
  set (c := if normSave ob then _ else _).
  assert (Hc : forall j, (j < nc tab)%nat -> c j = k * (m j * omw tab j)).
  { intros j Hj. unfold c, k. apply Nat.ltb_lt in Hj. destruct (normSave ob); rewrite ?Hj; [|ring].
    destruct (Req_EM_T tot 0); [contradiction|]. rewrite Hj. field. exact HS. }
  assert (Hc' : forall j, ~ (j < nc tab)%nat -> c j = k * entered ob j).
  { intros j Hj. unfold c, k. apply Nat.ltb_nlt in Hj. destruct (normSave ob); rewrite ?Hj; [|ring].
    destruct (Req_EM_T tot 0); [contradiction|]. rewrite Hj. field. exact HS. }
  assert (Hm : forall j, (j < nc tab)%nat -> molesOf c j = k * m j).
  { intros j Hj. unfold molesOf. rewrite Hc by auto. field. apply Rgt_not_eq, Mw, Hj. }
  exists (setComposition c ob), k. split; [reflexivity|]. split; [exact K|].
  split; [intros N; unfold k; now rewrite N|]. cbn [IfaceModel.setComposition entered].
  split; [|split; [|split; [|split]]].
  - intros o N2 N3. destruct (Nat.ltb_spec o (nc tab)) as [Ho|Ho]; [|now rewrite Hc' by lia].
    rewrite Hc by auto. unfold m. rewrite C75_other_oxides by auto. unfold molesOf. field. apply Rgt_not_eq, Mw, Ho.
  - unfold RedoxProps.iron. rewrite !Hm by auto.
    pose proof (C75_iron tab coeff iF2 iF3 capped Dif (temp ob) (press ob) (bufferValue ob) (molesOf (entered ob))) as I.
    fold m in I. unfold RedoxProps.iron in I. replace (k * m iF2 + 2 * (k * m iF3)) with (k * (m iF2 + 2 * m iF3)) by ring. now rewrite I.
  - rewrite (fO2of_ext _ _ _ (fun i => k * m i)) by exact Hm. rewrite fO2of_scale by exact K.
    unfold m. apply C76_round_trip; auto.
  - intros N. rewrite (sum_ext (nc tab) c (fun j => k * (m j * omw tab j))) by exact Hc. rewrite sum_scal. fold tot.
    unfold k. rewrite N. field. exact HS.
  - apply setComposition_settings.
Qed.

(** a composition of nothing negative, with some iron in it, is enough *)
Lemma sum_pos n f i : (forall j, (j < n)%nat -> 0 <= f j) -> (i < n)%nat -> 0 < f i -> 0 < sum n f.
Proof.
  induction n; intros P Hi F; [lia|]. cbn [sum].
  assert (Q : 0 <= sum n f). { clear - P IHn. assert (PP : forall j, (j < n)%nat -> 0 <= f j) by (intros; apply P; lia). clear P IHn.
    induction n; cbn [sum]; [lra|]. specialize (IHn ltac:(intros; apply PP; lia)). specialize (PP n ltac:(lia)). lra. }
  destruct (Nat.eq_dec i n) as [->|]; [lra|]. specialize (IHn ltac:(intros; apply P; lia) ltac:(lia) F). specialize (P n ltac:(lia)). lra.
Qed.
Theorem C206_nonnegative : forall b ob, ready ob -> (forall o, (o < nc tab)%nat -> 0 <= entered ob o) ->
  0 < entered ob iF2 \/ 0 < entered ob iF3 ->
  exists ob' k, redistribute b ob = Accepted ob' /\ 0 < k /\ (normSave ob = false -> k = 1) /\
    (forall o, o <> iF2 -> o <> iF3 -> entered ob' o = k * entered ob o) /\
    iron (molesOf (entered ob')) = k * iron (molesOf (entered ob)) /\
    0 < entered ob' iF2 /\ 0 < entered ob' iF3 /\
    fO2of (temp ob) (press ob) (molesOf (entered ob')) = bufferValue ob /\
    (normSave ob = true -> sum (nc tab) (entered ob') = 100) /\ sameSettings ob' ob.
Proof.
  intros b ob Rd P I.
  assert (Pm : forall o, (o < nc tab)%nat -> 0 <= molesOf (entered ob) o).
  { intros o Ho. apply Rmult_le_pos; [auto|]. left. apply Rinv_0_lt_compat. auto. }
  assert (HI : 0 < iron (molesOf (entered ob))).
  { unfold RedoxProps.iron. pose proof (Pm iF2 L2). pose proof (Pm iF3 L3).
    destruct I as [I|I]; [assert (0 < molesOf (entered ob) iF2) by (apply Rdiv_lt_0_compat; auto)|assert (0 < molesOf (entered ob) iF3) by (apply Rdiv_lt_0_compat; auto)]; lra. }
  assert (HA : 0 < allFeO (molesOf (entered ob))).
  { unfold RedoxProps.allFeO. apply (sum_pos _ _ iF2); [|exact L2|].
    - intros j Hj. unfold reduced. destruct (Nat.eqb j iF3); [lra|]. destruct (Nat.eqb j iF2); [lra|]. now apply Pm.
    - unfold reduced. rewrite Nat.eqb_refl. apply Nat.eqb_neq in Dif. now rewrite Dif. }
  destruct (C75_ratio tab coeff iF2 iF3 capped Dif (temp ob) (press ob) (bufferValue ob) _ HI ltac:(lra)) as (P2 & P3 & _).
  set (m := toRedox (temp ob) (press ob) (bufferValue ob) (molesOf (entered ob))) in *.
  assert (HS : 0 < sum (nc tab) (fun j => m j * omw tab j)).
  { apply (sum_pos _ _ iF2); [|exact L2|apply Rmult_lt_0_compat; auto].
    intros j Hj. apply Rmult_le_pos; [|left; auto].
    destruct (Nat.eq_dec j iF2) as [->|N2]; [lra|]. destruct (Nat.eq_dec j iF3) as [->|N3]; [lra|].
    unfold m. rewrite C75_other_oxides by auto. now apply Pm. }
  destruct (C206_redistributed b ob Rd HI ltac:(lra) ltac:(fold m; lra)) as (ob' & k & E & K & Kn & A & B & C & D & F).
  rewrite (redistribute_eq b ob Rd) in E. cbv zeta in E. fold m in E. injection E as E.
  assert (V : forall j, (j < nc tab)%nat -> entered ob' j = (if normSave ob then 100 / sum (nc tab) (fun j => m j * omw tab j) else 1) * (m j * omw tab j)).
  { intros j Hj. rewrite <- E. cbn [IfaceModel.setComposition entered]. apply Nat.ltb_lt in Hj. destruct (normSave ob); rewrite ?Hj; [|ring].
    destruct (Req_EM_T (sum (nc tab) (fun j => m j * omw tab j)) 0); [lra|]. rewrite Hj. field. lra. }
  set (k' := if normSave ob then _ else _) in V.
  assert (K' : 0 < k'). { unfold k'. destruct (normSave ob); [|lra]. apply Rdiv_lt_0_compat; lra. }
  assert (KK : k = k').
  { assert (U : iron (molesOf (entered ob')) = k' * iron (molesOf (entered ob))).
    { transitivity (k' * iron m).
      - unfold RedoxProps.iron, molesOf. rewrite !V by auto. pose proof (Mw iF2 L2). pose proof (Mw iF3 L3). field. lra.
      - unfold m. now rewrite C75_iron by auto. }
    rewrite B in U. apply Rmult_eq_reg_r in U; [exact U|lra]. }
  exists ob', k. rewrite (redistribute_eq b ob Rd). cbv zeta. fold m.
  split; [now rewrite E|]. split; [lra|]. split; [exact Kn|]. split; [exact A|]. split; [exact B|].
  split; [rewrite V by auto; apply Rmult_lt_0_compat; auto; apply Rmult_lt_0_compat; auto|].
  split; [rewrite V by auto; apply Rmult_lt_0_compat; auto; apply Rmult_lt_0_compat; auto|].
  split; [exact C|]. split; [exact D|exact F].
Qed.

(** the oxygen potential of the liquid the engine then holds is that of the buffer *)
Theorem C206_potential : invertible tab -> forall ob lf, configured ob -> compSet ob = true ->
  fO2of (temp ob) (press ob) (molesOf (entered ob)) = lf ->
  muO2 tab coeff iF2 iF3 capped (temp ob) (press ob) (liqC (matter (node ob)) 0) = Rgas * temp ob * ln 10 * lf.
Proof.
  intros Inv ob lf C S E. rewrite C77_same_fO2. f_equal. rewrite <- E. apply fO2of_ext. intros o Ho.
  destruct (C203_shows Inv ltac:(intros; apply Rgt_not_eq, Mw; auto) ob C S) as (H & _ & _ & N & Z).
  unfold molesOf. rewrite <- (H o Ho). unfold holdsGrams, amount. rewrite inSolids_none by exact Z.
  unfold inLiquids. rewrite N. cbn [sum]. unfold inLiquid, mOx. cbn [perLiq oxide].
  rewrite !Rplus_0_l. set (x := sum _ _). replace (x * omw tab o / omw tab o) with x by (field; apply Rgt_not_eq, Mw, Ho). reflexivity.
Qed.

(** ** C207: the buffer and the offset asked for *)
(** the argument of RedistributeFeOx makes no difference *)
Theorem C207_refuted_argument : forall b b' ob, redistribute b ob = redistribute b' ob.
Proof. reflexivity. Qed.
Lemma configured_off ob : configured ob -> engineOn ob = false.
Proof. intros C. apply (configured_unrun ob C). Qed.
(** and the offset set by the user is left out: the iron is set to the buffer itself *)
Theorem C207_refuted_offset : forall b ob, configured ob -> ready ob -> (forall o, (o < nc tab)%nat -> 0 <= entered ob o) ->
  0 < entered ob iF2 \/ 0 < entered ob iF3 -> (1 <= fo2Path ob <= 5)%Z ->
  exists ob', redistribute b ob = Accepted ob' /\
    fO2of (temp ob) (press ob) (molesOf (entered ob')) = log10fo2 0 (temp ob) (press ob) (fo2Path ob) /\
    fO2of (temp ob) (press ob) (molesOf (entered ob')) = log10fo2 (fo2Delta ob) (temp ob) (press ob) (fo2Path ob) - fo2Delta ob.
Proof.
  intros b ob C Rd P I H. destruct (C206_nonnegative b ob Rd P I) as (ob' & k & E & _ & _ & _ & _ & _ & _ & F & _).
  exists ob'. split; [exact E|]. rewrite F. unfold bufferValue. rewrite (configured_off ob C). split; [reflexivity|].
  assert (V : (fo2Path ob = 1 \/ fo2Path ob = 2 \/ fo2Path ob = 3 \/ fo2Path ob = 4 \/ fo2Path ob = 5)%Z) by lia.
  destruct V as [V|[V|[V|[V|V]]]]; rewrite V; unfold log10fo2; lra.
Qed.
(** without an offset, it is the constraint that was set *)
Theorem C207_without_offset_partial : forall ob, configured ob -> fo2Delta ob = 0 ->
  bufferValue ob = log10fo2 (fo2Delta ob) (temp ob) (press ob) (fo2Path ob).
Proof. intros ob C Z. unfold bufferValue. now rewrite (configured_off ob C), Z. Qed.
End Redox.

(** ** C208: settings *)
Theorem C208_mode : forall k ob, exists ob', setMode k ob = Accepted ob' /\
  (isH ob' = true <-> k = 1%Z) /\ (isS ob' = true <-> k = 2%Z) /\ (isV ob' = true <-> k = 3%Z) /\
  node ob' = node ob /\ entered ob' = entered ob /\ fo2Path ob' = fo2Path ob.
Proof.
  intros k ob. eexists. split; [reflexivity|].
  destruct k as [|[[|[]|]|[|[]|]|]|]; cbn; repeat split; try reflexivity; try discriminate; intros; congruence.
Qed.
(** at most one of the three constraints of energy or volume is in force, at any time *)
Lemma one_mode c ob : let one o := ((if isH o then 1 else 0) + (if isS o then 1 else 0) + (if isV o then 1 else 0) <= 1)%nat in
  one ob -> forall ob', issue c ob = Accepted ob' \/ issue c ob = Refused ob' -> one ob'.
Proof.
  intros one U ob' H. destruct c as [v|k|t p|k|d|c| |b]; cbn [IfaceProps.issue] in H.
  - destruct H as [H|H]; inversion H. unfold one. cbn. lia.
  - unfold setMode in H. destruct H as [H|H]; inversion H. unfold one. destruct k as [|[[|[]|]|[|[]|]|]|]; cbn; lia.
  - destruct H as [H|H]; inversion H. exact U.
  - unfold setFO2Path in H. destruct (Z.ltb k 0 || Z.ltb 19 k)%bool; destruct H as [H|H]; inversion H; subst; exact U.
  - unfold setFO2Offset in H.
    destruct (Z.ltb (fo2Path ob) 0 || Z.ltb 19 (fo2Path ob) || Z.eqb (fo2Path ob) 0)%bool; destruct H as [H|H]; inversion H; subst; exact U.
  - destruct H as [H|H]; inversion H. exact U.
  - unfold IfaceModel.normalize in H. destruct (negb (compSet ob)); [destruct H as [H|H]; inversion H; subst; exact U|].
    destruct (normSave ob); [|destruct H as [H|H]; inversion H; subst; exact U]. cbv zeta in H.
    destruct (Req_EM_T _ 0); [destruct H as [H|H]; inversion H|]. destruct H as [H|H]; inversion H. exact U.
  - unfold IfaceModel.redistribute in H. destruct (negb (compSet ob)); [destruct H as [H|H]; inversion H; subst; exact U|].
    destruct (Z.ltb (fo2Path ob) 1 || Z.ltb 19 (fo2Path ob))%bool; [destruct H as [H|H]; inversion H; subst; exact U|].
    destruct (Req_EM_T (press ob) 0); [destruct H as [H|H]; inversion H; subst; exact U|].
    destruct (Req_EM_T (temp ob) 0); [destruct H as [H|H]; inversion H; subst; exact U|].
    cbv zeta in H. destruct H as [H|H]; inversion H. exact U.
Qed.
Theorem C208_one_mode : forall ob, configured ob ->
  ((if isH ob then 1 else 0) + (if isS ob then 1 else 0) + (if isV ob then 1 else 0) <= 1)%nat.
Proof.
  intros ob C. induction C as [v ob E|c ob ob' H IH E|c ob ob' H IH E]; [cbn; lia| |].
  - exact (one_mode c ob IH ob' (or_introl E)).
  - exact (one_mode c ob IH ob' (or_intror E)).
Qed.
(** the oxygen constraint is the last one accepted; a number outside 0..19 is refused and changes nothing *)
Theorem C208_path : forall k ob, (0 <= k <= 19)%Z -> exists ob', setFO2Path k ob = Accepted ob' /\ fo2Path ob' = k /\
  fo2Delta ob' = fo2Delta ob /\ (fo2On (matter (node ob')) = true <-> k <> 0%Z) /\ entered ob' = entered ob /\
  (forall q, amount tab q (matter (node ob')) = amount tab q (matter (node ob))) /\
  (forall i, bulk (matter (node ob')) i = bulk (matter (node ob)) i).
Proof.
  intros k ob H. unfold setFO2Path. destruct (Z.ltb_spec k 0); [lia|]. destruct (Z.ltb_spec 19 k); [lia|]. cbn [orb].
  eexists. split; [reflexivity|]. cbn. repeat split; try reflexivity.
  - intros E ->. discriminate E.
  - intros E. apply Bool.negb_true_iff. now apply Z.eqb_neq.
Qed.
Theorem C208_path_refused : forall k ob, ~ (0 <= k <= 19)%Z -> setFO2Path k ob = Refused ob.
Proof. intros k ob H. unfold setFO2Path. destruct (Z.ltb_spec k 0); [reflexivity|]. destruct (Z.ltb_spec 19 k); [reflexivity|lia]. Qed.
(** an offset needs a constraint *)
Theorem C208_offset : forall d ob, (1 <= fo2Path ob <= 19)%Z -> exists ob', setFO2Offset d ob = Accepted ob' /\ fo2Delta ob' = d /\
  fo2Path ob' = fo2Path ob /\ node ob' = node ob /\ entered ob' = entered ob.
Proof.
  intros d ob H. unfold setFO2Offset. destruct (Z.ltb_spec (fo2Path ob) 0); [lia|]. destruct (Z.ltb_spec 19 (fo2Path ob)); [lia|].
  destruct (Z.eqb_spec (fo2Path ob) 0); [lia|]. cbn [orb]. eexists. split; [reflexivity|]. repeat split.
Qed.
Theorem C208_offset_refused : forall d ob, fo2Path ob = 0%Z -> setFO2Offset d ob = Refused ob.
Proof. intros d ob H. unfold setFO2Offset. now rewrite H. Qed.
(** a refusal never changes anything *)
Theorem C208_refusals : forall c ob ob', issue c ob = Refused ob' -> ob' = ob.
Proof.
  intros c ob ob' H. destruct c as [v|k|t p|k|d|c| |b]; cbn [IfaceProps.issue] in H; try discriminate H.
  - unfold setFO2Path in H. destruct (Z.ltb k 0 || Z.ltb 19 k)%bool; now inversion H.
  - unfold setFO2Offset in H. destruct (Z.ltb (fo2Path ob) 0 || Z.ltb 19 (fo2Path ob) || Z.eqb (fo2Path ob) 0)%bool; now inversion H.
  - unfold IfaceModel.normalize in H. destruct (negb (compSet ob)); [now inversion H|]. destruct (normSave ob); [|now inversion H].
    cbv zeta in H. destruct (Req_EM_T _ 0); now inversion H.
  - unfold IfaceModel.redistribute in H. destruct (negb (compSet ob)); [now inversion H|].
    destruct (Z.ltb (fo2Path ob) 1 || Z.ltb 19 (fo2Path ob))%bool; [now inversion H|].
    destruct (Req_EM_T (press ob) 0); [now inversion H|]. destruct (Req_EM_T (temp ob) 0); now inversion H.
Qed.

(** ** C209: the model chosen *)
Theorem C209_supported : forall v ob, (1 <= v <= 4)%Z -> let ob' := initializeMelts v ob in
  version ob' = v /\ calcMode ob' = v /\
  (* MELTS 1.0 and pMELTS have their own tables; rhyolite-MELTS 1.1 and 1.2 share one *)
  tables ob' = Some (match v with 1%Z => 1%nat | 2%Z => 2%nat | _ => 3%nat end).
Proof.
  intros v ob H. cbv zeta. unfold initializeMelts, createState. cbn [version calcMode tables].
  destruct (Z.ltb_spec 4 v); [lia|]. destruct (Z.ltb_spec v 1); [lia|]. cbn [orb]. split; [reflexivity|]. split; [reflexivity|].
  assert (V : (v = 1 \/ v = 2 \/ v = 3 \/ v = 4)%Z) by lia. destruct V as [V|[V|[V|V]]]; rewrite V; reflexivity.
Qed.
(** any other number is announced to mean MELTS 1.0, and the tables are those of MELTS 1.0; but the calculation mode, by
    which every property routine chooses its formulas, is left at that number *)
Theorem C209_refuted : forall v ob, ~ (1 <= v <= 4)%Z -> let ob' := initializeMelts v ob in
  version ob' = 1%Z /\ tables ob' = Some 1%nat /\ calcMode ob' = v /\ calcMode ob' <> version ob'.
Proof.
  intros v ob H. cbv zeta. unfold initializeMelts, createState. cbn [version calcMode tables].
  assert (E : (Z.ltb 4 v || Z.ltb v 1)%bool = true). { destruct (Z.ltb_spec 4 v); [reflexivity|]. destruct (Z.ltb_spec v 1); [reflexivity|lia]. }
  rewrite E. repeat split. lia.
Qed.

(** ** C210: initialising forgets *)
Theorem C210_forgets : forall v ob1 ob2, let a := initializeMelts v ob1 in let b := initializeMelts v ob2 in
  node a = node b /\ entered a = entered b /\ compSet a = false /\ compSet b = false /\ tpSet a = tpSet b /\ temp a = temp b /\
  press a = press b /\ fo2Path a = fo2Path b /\ fo2Delta a = fo2Delta b /\ isH a = isH b /\ isS a = isS b /\ isV a = isV b /\
  version a = version b /\ calcMode a = calcMode b /\ tables a = tables b.
Proof. intros. repeat split. Qed.
(** nothing of an earlier run is in the system, and no constraint is in force *)
Theorem C210_empty : forall v ob q, let a := initializeMelts v ob in
  amount tab q (matter (node a)) = 0 /\ (forall o, bulk (matter (node a)) o = 0) /\ liquidMass (node a) = 0 /\
  fo2Path a = 0%Z /\ fo2On (matter (node a)) = false /\ isH a = false /\ isS a = false /\ isV a = false.
Proof.
  intros v ob q. cbv zeta. cbn. repeat split. unfold amount. rewrite inSolids_none by reflexivity.
  unfold inLiquids, inLiquid. cbn [nLiq emptyNode matter sum liqC]. rewrite sum_0 by (intros; ring). ring.
Qed.
End P.

(** ** C204: a composition entered into an object in use *)
(** one oxide, one phase with one gram of it as a solid: entering [x] grams leaves the solid where it is *)
Definition usedObj (y : R) : Obj :=
  mkObj (tinyNode true 0 y) (fun _ => 0) 0 true true false 1000 1 0 0 false false false 1 1 (Some 1%nat) false.
Theorem C204_refuted : forall x y, 0 < x -> 0 < y -> let ob := setComposition tiny (fun o => if Nat.eqb o 0 then x else 0) (usedObj y) in
  entered ob 0%nat = x /\ liquidMass (node ob) = x /\
  holdsGrams tiny ob 0 = x + y /\ ~ balanced tiny (matter (node ob)).
Proof.
  intros x y X Y. cbv zeta.
  assert (A : amount tiny (oxide tiny 0) (matter (node (setComposition tiny (fun o => if Nat.eqb o 0 then x else 0) (usedObj y)))) = x + y).
  { unfold amount, inSolids, inLiquids, inLiquid, solidAmount, oxide, setComposition, supplyFresh, usedObj, tinyNode.
    cbn -[Rplus Rmult Rdiv]. field. }
  split; [reflexivity|]. split; [unfold setComposition, supplyFresh; cbn -[Rplus Rmult Rdiv]; ring|].
  split; [unfold holdsGrams; rewrite A; cbn [tiny omw]; ring|].
  intros B. specialize (B 0%nat ltac:(cbn; lia)). rewrite A in B. unfold setComposition, supplyFresh in B. cbn -[Rplus Rmult Rdiv] in B.
  unfold Rdiv in B. rewrite Rinv_1 in B. lra.
Qed.

(** ** A case: nineteen oxides, one gram of each, on the nickel-nickel oxide buffer with an offset of one *)
Definition blank : Obj := mkObj emptyNode (fun _ => 0) 0 false false true 0 0 0 0 false false false 1 1 None false.
Definition got (a : Answer) : Obj := match a with Accepted ob => ob | Refused ob => ob | NotNumbers => blank end.
Definition oneGram (i : nat) : R := if Nat.ltb i 19 then 1 else 0.
Definition caseObj : Obj :=
  setComposition oxideTab oneGram (got (setFO2Offset 1 (got (setFO2Path 2 (got (setInitialTP 1200 1000 (initializeMelts 4 blank))))))).
Theorem C207_case : configured oxideTab coeffs 5 3 true caseObj /\ ready caseObj /\ fo2Delta caseObj = 1 /\ fo2Path caseObj = 2%Z /\
  exists ob', redistribute oxideTab coeffs 5 3 true 3 caseObj = Accepted ob' /\ configured oxideTab coeffs 5 3 true ob' /\
  fO2of oxideTab coeffs 5 3 true (temp ob') (press ob') (molesOf oxideTab (entered ob')) = log10fo2 1 (temp ob') (press ob') 2 - 1 /\
  0 < entered ob' 3%nat /\ sum 19 (entered ob') = 100 /\ holdsGrams oxideTab ob' 3 = entered ob' 3%nat.
Proof.
  assert (C : configured oxideTab coeffs 5 3 true caseObj).
  { unfold caseObj.
    apply (cf_accepted _ _ _ _ _ (CComp oneGram) (got (setFO2Offset 1 (got (setFO2Path 2 (got (setInitialTP 1200 1000 (initializeMelts 4 blank)))))))); [|reflexivity].
    apply (cf_accepted _ _ _ _ _ (COffset 1) (got (setFO2Path 2 (got (setInitialTP 1200 1000 (initializeMelts 4 blank)))))); [|reflexivity].
    apply (cf_accepted _ _ _ _ _ (CPath 2) (got (setInitialTP 1200 1000 (initializeMelts 4 blank)))); [|reflexivity].
    apply (cf_accepted _ _ _ _ _ (CTP 1200 1000) (initializeMelts 4 blank)); [|reflexivity].
    apply cf_init. reflexivity. }
  assert (Rd : ready caseObj). { unfold ready. split; [reflexivity|]. split; [cbn; lia|]. split; cbn; lra. }
  split; [exact C|]. split; [exact Rd|]. split; [reflexivity|]. split; [reflexivity|].
  destruct (C206_nonnegative oxideTab coeffs 5 3 true ltac:(lia) ltac:(cbn; lia) ltac:(cbn; lia) ltac:(intros; cbn; lra) 3%Z caseObj Rd)
    as (ob' & k & E & _ & _ & _ & _ & _ & Q & F & N & S).
  - intros o Ho. change (entered caseObj o) with (oneGram o). unfold oneGram. destruct (Nat.ltb o 19); lra.
  - left. change (entered caseObj 5%nat) with 1. lra.
  - assert (C' : configured oxideTab coeffs 5 3 true ob') by exact (cf_accepted _ _ _ _ _ (CRedist 3) caseObj ob' C E).
    exists ob'. split; [exact E|]. split; [exact C'|].
    destruct S as (_ & _ & St & Sp & _). rewrite St, Sp.
    split; [rewrite F; unfold bufferValue; rewrite (configured_off _ _ _ _ _ _ C); change (fo2Path caseObj) with 2%Z; unfold log10fo2; lra|].
    split; [exact Q|]. split; [exact (N eq_refl)|].
    assert (Inv : invertible oxideTab).
    { intros m o Ho. cbn [oxideTab nlc nc oxToLiq liqToOx] in *.
      rewrite (sum_ext 19 _ (fun j => if Nat.eqb j o then m j else 0)).
      - rewrite sum_one_f. apply Nat.ltb_lt in Ho. now rewrite Ho.
      - intros j Hj. rewrite (sum_ext 19 _ (fun o' => if Nat.eqb o' j then m o' else 0)) by (intros o' Ho'; destruct (Nat.eqb o' j); ring).
        rewrite sum_one_f. apply Nat.ltb_lt in Hj. rewrite Hj. destruct (Nat.eqb j o); ring. }
    assert (CS : compSet ob' = true). { pose proof E as E2. rewrite (redistribute_eq oxideTab coeffs 5 3 true ltac:(lia) ltac:(cbn; lia) ltac:(cbn; lia) 3 caseObj Rd) in E2. injection E2 as E2. now rewrite <- E2. }
    destruct (C203_shows oxideTab coeffs 5 3 true Inv ltac:(intros; cbn; lra) ob' C' CS) as (H & _). apply H. cbn; lia.
Qed.
