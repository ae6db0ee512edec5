(** Theorems about the test for a second instance of a solid solution: C150-C153. *)
From Coq Require Import Reals List Bool Arith Lia Lra.
From Coquelicot Require Import Coquelicot.
From Verif Require Import MassModel MassSpec MassProofs MassOps MassProps RealTac LaSpec LaBase LiqModel NashModel NashSpec NashProofs NashProps CoexModel CoexFrame CoexProps CoexSolModel CoexSolSpec CoexSolProofs.
Import List ListNotations.
Open Scope R_scope.
Notation sum := MassModel.sum.

(** every end-member is there *)
Definition whole (X : Solid) (m : nat -> R) : Prop := forall i, (i < sNa X)%nat -> m i <> 0.

Section One.
Variable X : Solid.
Variables t p : R.
Variable h0 : nat -> R.
Lemma whole_neS m : whole X m -> neS X m = 0%nat.
Proof.
  intros W. unfold neS, nullsS. replace (filter (fun i => isZ (m i)) (seq 0 (sNa X))) with (@nil nat); [reflexivity|]. symmetry.
  assert (Q : forall l, (forall i, In i l -> m i <> 0) -> filter (fun i => isZ (m i)) l = []).
  { induction l as [|a l IH]; intros H; [reflexivity|]. cbn [filter]. destruct (isZ (m a)) eqn:E.
    - apply isZ_true in E. now elim (H a (or_introl eq_refl)).
    - apply IH. intros i I. apply H. now right. }
  apply Q. intros i I. apply in_seq in I. apply W. lia.
Qed.
Lemma accepted_pointS m i x : trialS X t p h0 m i (Some x) ->
  exists r B, x = liftS X h0 m (fixedS X h0 m i) (oB r) /\ fminfnS X t p h0 m (fixedS X h0 m i) B = Some (oF r) /\ oF r < - reltest * Rabs (sG X t p (sR X m)) /\
    (B = oB r \/ within (nzS X m) (2 * reltest) B (oB r)).
Proof.
  intros (F0 & r & V & E). destruct (codev r) eqn:Cd; try discriminate E. destruct (Rlt_dec (oF r) _) as [L|]; [|discriminate E]. injection E as ->.
  destruct (fminfnS X t p h0 m (fixedS X h0 m i) (fun k => startFreeS X h0 m i (k + neS X m)%nat)) as [y|] eqn:Ey.
  - destruct (C31_vmmin_reported_minimum _ _ _ _ _ _ _ _ Ey V) as (B & X1 & X2 & X3). exists r, B. split; [reflexivity|]. split; [exact X1|]. split; [exact L|exact X3].
  - unfold vmmin in V. rewrite Ey in V. rewrite V in Cd. discriminate Cd.
Qed.
Lemma searches_inS m cs x : searchesS X t p h0 m cs -> In x cs -> exists i, In i (presentS X m) /\ trialS X t p h0 m i (Some x).
Proof.
  intros (l & F & ->). revert F. generalize (presentS X m). intros is F. induction F as [|i o is l T F IH]; intros I; [destruct I|].
  unfold somes in I. cbn [flat_map] in I. apply in_app_or in I. destruct I as [I|I].
  - destruct o as [z|]; [|destruct I]. destruct I as [->|[]]. exists i. split; [now left|exact T].
  - destruct (IH I) as (j & J1 & J2). exists j. split; [now right|exact J2].
Qed.
Lemma farthest_inS ref l x0 : In (farthestS X ref x0 l) (x0 :: l).
Proof.
  unfold farthestS. revert x0. induction l as [|y l IH]; intros x0; cbn [fold_left]; [now left|].
  destruct (Rlt_dec _ _); destruct (IH y) as [E|I]; destruct (IH x0) as [E'|I']; try (right; left; assumption); try (left; assumption); right; right; assumption.
Qed.
Lemma scan_someS ms x : scanS X t p h0 ms (Some x) -> exists m i, In m ms /\ In i (presentS X m) /\ trialS X t p h0 m i (Some x).
Proof.
  intros S. remember (Some x) as o eqn:E. revert E. induction S as [|m ms o S1 S2 IH|m ms z cs S1]; intros E; [discriminate E| |].
  - destruct (IH E) as (m' & i & A & B). exists m', i. split; [now right|exact B].
  - injection E as <-. destruct (searches_inS m _ _ S1 (farthest_inS (sR X m) cs z)) as (i & A & B). exists m, i. split; [now left|]. split; assumption.
Qed.
(** the point behind a candidate lies below the tangent plane *)
Lemma candidate_gap m i x : whole X m -> trialS X t p h0 m i (Some x) -> exists z, sTest X z = true /\ gapS X t p (sR X m) z < 0.
Proof.
  intros W T. destruct (accepted_pointS m i x T) as (r & B & _ & E & N & _). unfold fminfnS in E. cbv zeta in E.
  destruct (sTest X (liftS X h0 m (fixedS X h0 m i) B)) eqn:Tz; [|discriminate E]. injection E as E. eexists. split; [exact Tz|]. rewrite E.
  pose proof (Rabs_pos (sG X t p (sR X m))). pose proof reltest_pos. nra.
Qed.
End One.

(** ** C150 *)
Section C150.
Variable tab : Tab.
Variable solid : nat -> Solid.
Variable kind : nat -> Kind.
Variables t p : R.
Variable h0 : nat -> R.
(** the solutions are linear in the amounts; every instance has all its end-members, a composition inside the model's domain, and cannot lower its energy by dividing *)
Definition all_stable (s : St) : Prop := forall i, (i < npc tab)%nat -> (1 < na tab i)%nat ->
  (exists A x, linearOK (solid i) A x) /\
  exists mu0, forall m, In m (instances i s) -> whole (solid i) m /\ 0 < sum (sNa (solid i)) m /\ interior (solid i) t p (sR (solid i) m) /\ stableS (solid i) mu0 t p m.
Lemma visit_stable i s s' f : (i < npc tab)%nat -> all_stable s -> visit tab solid kind t p h0 i s s' f -> s' = s /\ f = false.
Proof.
  intros Hi St V. unfold visit in V. destruct (Nat.leb_spec (na tab i) 1) as [|N1]; [exact V|]. destruct (blocked (kind i) (nSol s i)); [exact V|].
  destruct V as ([x|] & Sc & V); [|exact V]. exfalso. destruct (St i Hi N1) as ((A & xl & Lin) & mu0 & H).
  destruct (scan_someS _ _ _ _ _ _ Sc) as (m & k & I & _ & T). destruct (H m I) as (W & P & Int & Sb).
  destruct (candidate_gap _ _ _ _ _ _ _ W T) as (z & Tz & Neg).
  destruct (gap_unstableS (solid i) A xl Lin t p mu0 m z P Int Tz Neg) as (part & rest & Ap & Ar & E & L).
  specialize (Sb part rest Ap Ar (fun j _ => E j)). lra.
Qed.
Theorem C150_stable_solids_are_kept : forall s s' found, all_stable s -> checkSolids tab solid kind t p h0 s s' found -> found = false /\ s' = s.
Proof.
  intros s s' found St C. unfold checkSolids in C. destruct (Rle_dec t 0); [tauto|]. destruct (Rlt_dec p 0); [tauto|].
  assert (Q : forall l, (forall i, In i l -> (i < npc tab)%nat) -> forall f, visits tab solid kind t p h0 l s s' f -> f = false /\ s' = s).
  { induction l as [|i l IH]; intros Hl f V; inversion V as [|i' l' s1 s2 s3 f1 f2 V1 V2]; subst; [tauto|].
    destruct (visit_stable i s s2 f1 (Hl i (or_introl eq_refl)) St V1) as (-> & ->). destruct (IH (fun j I => Hl j (or_intror I)) f2 V2) as (-> & ->). tauto. }
  apply (Q (seq 0 (npc tab))); [|exact C]. intros i I. apply in_seq in I. lia.
Qed.
End C150.

(** ** C151 *)
Theorem C151_tangent_plane : forall X A x t p mu0 m, linearOK X A x -> 0 < sum (sNa X) m ->
  (forall z, sTest X z = true -> 0 <= gapS X t p (sR X m) z) ->
  forall ms : list (nat -> R), (forall q, In q ms -> admissible X q) -> (forall i, (i < sNa X)%nat -> amountS ms i = m i) ->
  gibbsS X mu0 t p m <= gibbs_allS X mu0 t p ms.
Proof.
  intros X A x t p mu0 m Lin P H ms Ad E. refine (Rle_trans _ _ _ _ (gibbs_sumS X A x Lin t p mu0 (sR X m) ms Ad H)).
  rewrite (MassProofs.sum_ext _ (fun i => amountS ms i * mu0 i) (fun i => m i * mu0 i)) by (intros i Hi; now rewrite E).
  rewrite (MassProofs.sum_ext (sNa X) (amountS ms) m) by exact E.
  rewrite (MassProofs.sum_ext (sNr X) (fun i => sGx X t p (sR X m) i * sum (sNa X) (fun k => A i k * amountS ms k)) (fun i => sum (sNa X) m * (sGx X t p (sR X m) i * sR X m i))).
  - rewrite MassProofs.sum_scal. unfold gibbsS. right. ring.
  - intros i Hi. rewrite (MassProofs.sum_ext (sNa X) _ (fun k => A i k * m k)) by (intros k Hk; now rewrite E). rewrite (moment X A x Lin m i Hi P). ring.
Qed.
Theorem C151_stable : forall X A x t p mu0 m, linearOK X A x -> 0 < sum (sNa X) m ->
  (forall z, sTest X z = true -> 0 <= gapS X t p (sR X m) z) -> stableS X mu0 t p m.
Proof.
  intros X A x t p mu0 m Lin P H part rest Ap Ar E.
  replace (gibbsS X mu0 t p part + gibbsS X mu0 t p rest) with (gibbs_allS X mu0 t p [part; rest]) by (cbn [gibbs_allS fold_right]; ring).
  apply (C151_tangent_plane X A x t p mu0 m Lin P H).
  - intros q [<-|[<-|[]]]; assumption.
  - intros i Hi. unfold amountS. cbn [fold_right]. rewrite <- E by exact Hi. ring.
Qed.
