(** C148: the gradient given to the minimiser. C149: the result is a function of the state. A stable liquid. *)
From Coq Require Import Reals List Bool Arith Lia Lra FunctionalExtensionality.
From Coquelicot Require Import Coquelicot.
From Verif Require Import MassModel MassProofs RealTac LiqModel LiqProofs LiqProps HessPhase HessLiq LaSpec LaBase HhModel HftiProofs QuadModel FullRank NashModel NashSpec NashProofs NashProps CoexModel CoexSpec CoexFrame CoexProofs CoexProps CoexMore.
Import List ListNotations.
Open Scope R_scope.

Section G.
Variable n : nat.
Variables WH WS WV : nat -> nat -> R.
Hypotheses (SH : symmetric n WH) (SS : symmetric n WS) (SV : symmetric n WV).
Hypothesis N1 : (1 <= n)%nat.
Variables t p : R.
Variable h0 : nat -> R.
Notation NA := (S n).
Notation dgmix := (dgmix n WH WS WV t p).

Lemma near_pos (f : R -> R) d a : is_derive f 0 d -> a < f 0 -> locally 0 (fun s => a < f s).
Proof.
  intros D H. assert (C : continuous f 0) by (apply (ex_derive_continuous (K:=R_AbsRing) (V:=R_NormedModule) f 0); exists d; exact D).
  apply (C (fun y => a < y)). exists (mkposreal (f 0 - a) ltac:(lra)). intros y B. assert (Q : Rabs (y - f 0) < f 0 - a) by exact B. apply Rabs_def2 in Q. lra.
Qed.
Section One.
Variable m : nat -> R.
Hypothesis M0 : m 0%nat <> 0.
Variable s : nat.
Variable b : nat -> R.
Variable k : nat.
Hypothesis Hk : (k < nz n m)%nat.
Definition moved (e : R) (j : nat) : R := b j + e * (if Nat.eqb j k then 1 else 0).
Notation x e := (lift n h0 m (fixed n h0 m s) (moved e)).
Notation x0 := (lift n h0 m (fixed n h0 m s) b).
(** every component that is present is present in the composition in question, above the threshold of line 340 *)
Hypothesis Inside : forall i, (i < n)%nat -> m (S i) <> 0 -> 10 * dblEps < x0 i.
Hypothesis Silica : 0 < xr n x0 0.
Definition dir (i : nat) : R := if (ne n m =? 0)%nat then (if Nat.eqb i k then 1 else 0) else fromFree n h0 m (fun j => if Nat.eqb j (k + ne n m) then 1 else 0) i.

Lemma moved0 : moved 0 = b.
Proof. apply functional_extensionality. intros j. unfold moved. ring. Qed.
Definition line (e : R) (i : nat) : R := fromFree n h0 m (fun i => if (i <? ne n m)%nat then fixed n h0 m s i else b (i - ne n m)%nat) i + e * fromFree n h0 m (fun j => if Nat.eqb j (k + ne n m) then 1 else 0) i.
Lemma lift_line e i : (i < n)%nat -> (ne n m <> 0)%nat -> x e i = snap (line e) i.
Proof.
  intros Hi Z. unfold lift. destruct (Nat.eqb_spec (ne n m) 0); [contradiction|]. unfold snap at 1 2, line.
  destruct (frame_maps n h0 m M0) as (K & Ki & C' & O & Dn & _). rewrite !Dn. destruct O as (Ex & _ & Li & _).
  rewrite <- Li by auto.
  rewrite (Ex (fun i => if (i <? ne n m)%nat then fixed n h0 m s i else moved e (i - ne n m)%nat)
    (fun j => (if (j <? ne n m)%nat then fixed n h0 m s j else b (j - ne n m)%nat) + e * (if Nat.eqb j (k + ne n m) then 1 else 0))); auto.
  intros j Hj. unfold moved. destruct (Nat.ltb_spec j (ne n m)).
  - destruct (Nat.eqb_spec j (k + ne n m)); [lia|]. ring.
  - destruct (Nat.eqb_spec (j - ne n m) k), (Nat.eqb_spec j (k + ne n m)); try lia; ring.
Qed.
Lemma lift_derive i : (i < n)%nat -> is_derive (fun e => x e i) 0 (dir i).
Proof.
  intros Hi. unfold dir. destruct (Nat.eqb_spec (ne n m) 0) as [Z|Z].
  - apply (is_derive_ext (fun e => moved e (i - ne n m)%nat)).
    + intros e. unfold lift. rewrite Z. reflexivity.
    + rewrite Z, Nat.sub_0_r. unfold moved. auto_derive; [auto|ring].
  - destruct (Req_dec (m (S i)) 0) as [Zi|Pi].
    + assert (E : fromFree n h0 m (fun j => if Nat.eqb j (k + ne n m) then 1 else 0) i = 0).
      { destruct (row_of n m (S i) ltac:(lia) Zi) as (q & Hq & Eq). replace i with (nth q (nulls n m) q - 1)%nat by lia. apply (fromFree_zero n h0 m M0); auto.
        intros r Hr. destruct (Nat.eqb_spec r (k + ne n m)); [lia|reflexivity]. }
      rewrite E. apply (is_derive_ext (fun _ => 0)); [|apply (is_derive_const (V := R_NormedModule))]. intros e. symmetry. now apply lift_null.
    + assert (Ln : is_derive (fun e => line e i) 0 (fromFree n h0 m (fun j => if Nat.eqb j (k + ne n m) then 1 else 0) i)) by (unfold line; auto_derive; [auto|ring]).
      apply (is_derive_ext_loc (fun e => line e i)); [|exact Ln].
      assert (I : 10 * dblEps < line 0 i).
      { pose proof (Inside i Hi Pi) as I. rewrite <- moved0, (lift_line 0 i Hi Z) in I. unfold snap in I. pose proof dblEps_pos. destruct (Rlt_dec _ _); [lra|exact I]. }
      generalize (near_pos (fun e => line e i) _ _ Ln I). apply filter_imp. intros e He. rewrite (lift_line e i Hi Z). unfold snap. pose proof dblEps_pos.
      destruct (Rlt_dec (Rabs (line e i)) (10 * dblEps)) as [L|]; [|reflexivity]. rewrite Rabs_pos_eq in L by lra. lra.
Qed.
Lemma near_feasible : locally 0 (fun e => feasibleR n (x e) = true).
Proof.
  assert (A : forall j, (j <= n)%nat -> locally 0 (fun e => forall i, (i < j)%nat -> 0 <= x e i)).
  { induction j; intros Hj; [apply filter_forall; intros; lia|]. pose proof (IHj ltac:(lia)) as I.
    assert (Q : locally 0 (fun e => 0 <= x e j)).
    { destruct (Req_dec (m (S j)) 0) as [Z|P].
      - apply filter_forall. intros e. rewrite lift_null; auto. lra.
      - assert (P0 : 0 < x 0 j) by (rewrite moved0; pose proof (Inside j ltac:(lia) P); pose proof dblEps_pos; lra).
        generalize (near_pos (fun e => x e j) _ 0 (lift_derive j ltac:(lia)) P0). apply filter_imp. intros e He. lra. }
    generalize (filter_and _ _ I Q). apply filter_imp. intros e (H1 & H2) i Hi. destruct (Nat.eq_dec i j) as [->|]; [exact H2|]. apply H1. lia. }
  assert (Sd : is_derive (fun e => 1 - MassModel.sum n (x e)) 0 (0 - MassModel.sum n dir)).
  { apply (is_derive_minus (fun _ => 1) (fun e => MassModel.sum n (x e))); [apply (is_derive_const (V := R_NormedModule))|]. apply (is_derive_sum n (fun i e => x e i)). exact lift_derive. }
  assert (S0 : 0 < 1 - MassModel.sum n (x 0)) by (rewrite moved0; exact Silica).
  generalize (filter_and _ _ (A n (Nat.le_refl _)) (near_pos (fun e => 1 - MassModel.sum n (x e)) _ 0 Sd S0)). apply filter_imp. intros e (H1 & H2).
  apply feasibleR_spec. split; [|lra]. intros i Hi. split; [now apply H1|].
  assert (B : x e i <= MassModel.sum n (x e)); [|lra].
  change MassModel.sum with LaSpec.sum. rewrite (LaBase.sum_at n i (x e) (fun j => if Nat.eqb j i then 0 else x e j)); [|intros j Hj Nj; destruct (Nat.eqb_spec j i); [lia|auto]|lia]. rewrite Nat.eqb_refl.
  assert (0 <= LaSpec.sum n (fun j => if Nat.eqb j i then 0 else x e j)); [|lra]. apply LaBase.sum_pos. intros j Hj. destruct (Nat.eqb j i); [lra|]. now apply H1.
Qed.
(** C148 *)
Lemma gradient : is_derive (fun e => value (fminfn n WH WS WV t p None h0 m (fixed n h0 m s) (moved e))) 0 (fmingr n WH WS WV t p None h0 m (fixed n h0 m s) b k).
Proof.
  set (ref := rOf n m).
  apply (is_derive_ext_loc (fun e => gap n WH WS WV t p ref (x e))).
  { generalize near_feasible. apply filter_imp. intros e F. unfold fminfn, evaluated. rewrite F. reflexivity. }
  assert (F0 : feasibleR n x0 = true) by (pose proof (locally_singleton _ _ near_feasible) as F; cbv beta in F; now rewrite moved0 in F).
  assert (G : is_derive (fun e => gmix n WH WS WV t p (x e)) 0 (MassModel.sum n (fun i => dgmix (x 0) i * dir i))).
  { apply gmix_path; auto.
    - exact lift_derive.
    - intros i Hi. destruct (Req_dec (m (S i)) 0) as [Z|P].
      + right. apply filter_forall. intros e. now apply lift_null.
      + left. rewrite moved0. pose proof (Inside i Hi P). pose proof dblEps_pos. lra.
    - rewrite moved0. exact Silica. }
  assert (L : is_derive (fun e => MassModel.sum n (fun i => dgmix ref i * (x e i - ref i))) 0 (MassModel.sum n (fun i => dgmix ref i * dir i))).
  { apply (is_derive_sum n (fun i e => dgmix ref i * (x e i - ref i))). intros i Hi. apply is_derive_scal.
    eapply is_derive_eq; [apply (is_derive_minus (fun e => x e i) (fun _ => ref i)); [now apply lift_derive|apply (is_derive_const (V := R_NormedModule))]|].
    transitivity (dir i - 0); [reflexivity|ring]. }
  assert (G' : is_derive (fun e => gmix n WH WS WV t p (x e) - gmix n WH WS WV t p ref) 0 (MassModel.sum n (fun i => dgmix (x 0) i * dir i) - 0)).
  { apply (is_derive_minus (fun e => gmix n WH WS WV t p (x e)) (fun _ => gmix n WH WS WV t p ref)); [exact G|apply (is_derive_const (V := R_NormedModule))]. }
  eapply is_derive_eq; [exact (is_derive_minus _ _ 0 _ _ G' L)|].
  transitivity ((MassModel.sum n (fun i => dgmix (x 0) i * dir i) - 0) - MassModel.sum n (fun i => dgmix ref i * dir i)); [reflexivity|].
  rewrite moved0. unfold fmingr, evaluated. rewrite F0. fold ref.
  assert (T : MassModel.sum n (fun i => dgmix x0 i * dir i) - 0 - MassModel.sum n (fun i => dgmix ref i * dir i) = dot n (fun i => dgmix x0 i - dgmix ref i) dir).
  { unfold dot. rewrite (LaBase.sum_ext n (fun i => (dgmix x0 i - dgmix ref i) * dir i) (fun i => dgmix x0 i * dir i - dgmix ref i * dir i)) by (intros; ring). rewrite LaBase.sum_minus. change LaSpec.sum with MassModel.sum. ring. }
  rewrite T. set (g := fun i => dgmix x0 i - dgmix ref i). set (e := fun j => if Nat.eqb j (k + ne n m) then 1 else 0).
  assert (Q : dot n (toFree n h0 m g) e = toFree n h0 m g (k + ne n m)%nat).
  { unfold dot, e. rewrite (LaBase.sum_ext n _ (fun i => if Nat.eqb i (k + ne n m) then toFree n h0 m g i else 0)); [apply sum_one; unfold nz in Hk; lia|]. intros i Hi. destruct (Nat.eqb i (k + ne n m)); ring. }
  rewrite <- Q. destruct (Nat.eq_dec (ne n m) 0) as [Z|Z].
  - assert (I : forall v, toFree n h0 m v = v) by (intros v; unfold toFree, projUp; rewrite Z; reflexivity).
    rewrite I. apply dot_ext; auto. intros i Hi. unfold dir, e. rewrite Z, Nat.add_0_r. reflexivity.
  - destruct (frame_maps n h0 m M0) as (K & Ki & C' & O & Dn & _ & Ad & _). rewrite Ad. apply dot_ext; auto. intros i Hi. unfold dir. destruct (Nat.eqb_spec (ne n m) 0); [contradiction|]. apply Dn.
Qed.
End One.
End G.

(** ** C148: along each free variable the gradient passed to the minimiser is the derivative of the function passed to it *)
Theorem C148_gradient : forall n WH WS WV t p h0 m s b k,
  symmetric n WH -> symmetric n WS -> symmetric n WV -> (1 <= n)%nat -> m 0%nat <> 0 -> (k < nz n m)%nat ->
  (forall i, (i < n)%nat -> m (S i) <> 0 -> 10 * dblEps < lift n h0 m (fixed n h0 m s) b i) -> 0 < xr n (lift n h0 m (fixed n h0 m s) b) 0 ->
  is_derive (fun e => value (fminfn n WH WS WV t p None h0 m (fixed n h0 m s) (fun j => b j + e * (if Nat.eqb j k then 1 else 0)))) 0
    (fmingr n WH WS WV t p None h0 m (fixed n h0 m s) b k).
Proof. intros n WH WS WV t p h0 m s b k SH SS SV N1 M0 Hk I X. exact (gradient n WH WS WV SH SS SV N1 t p h0 m M0 s b k Hk I X). Qed.
(** a case: all nineteen components present in equal amounts *)
Theorem C148_case : forall par t p h0 s, let m := fun _ : nat => 1 in
  (3 < nz NR m)%nat /\ (forall i, (i < NR)%nat -> 10 * dblEps < lift NR h0 m (fixed NR h0 m s) (fun _ => 1 / 20) i) /\
  is_derive (fun e => value (fminfn NR (byPair par) (byPair par) (byPair par) t p None h0 m (fixed NR h0 m s) (fun j => 1 / 20 + e * (if Nat.eqb j 3 then 1 else 0)))) 0
    (fmingr NR (byPair par) (byPair par) (byPair par) t p None h0 m (fixed NR h0 m s) (fun _ => 1 / 20) 3).
Proof.
  intros par t p h0 s m. assert (Z : isZ 1 = false) by (unfold isZ; destruct (Req_EM_T 1 0); [lra|reflexivity]).
  assert (E : ne NR m = 0%nat) by (unfold ne, nulls, m; rewrite Z; reflexivity).
  assert (L : forall i, lift NR h0 m (fixed NR h0 m s) (fun _ => 1 / 20) i = 1 / 20) by (intros i; unfold lift; rewrite E; reflexivity).
  assert (D : 10 * dblEps < 1 / 20) by (unfold dblEps; lra).
  assert (K : (3 < nz NR m)%nat) by (unfold nz; rewrite E; unfold NR; lia).
  split; [exact K|]. split; [intros i Hi; rewrite L; exact D|].
  assert (Sy : symmetric NR (byPair par)) by (intros i j Hi Hj; apply byPair_sym; unfold NR in *; lia).
  apply (C148_gradient NR _ _ _ t p h0 m s (fun _ => 1 / 20) 3 Sy Sy Sy); [unfold NR; lia|unfold m; lra|exact K|intros i Hi _; rewrite L; exact D|].
  cbn [xr]. rewrite (MassProofs.sum_ext NR _ (fun _ => 1 / 20)) by (intros; apply L). unfold NR. cbn [MassModel.sum]. lra.
Qed.

(** ** C149: the result exists, is unique, and does not depend on what earlier calls left behind *)
Section D.
Variable n : nat.
Variables WH WS WV : nat -> nat -> R.
Variables t p : R.
Variable redox : option ((nat -> R) -> nat -> R).
Lemma decomp_indep m h h' : forall i, let f := fun i ch => let '(C', h1) := householderSelf Row Row i (i + 1) n (fst ch) i (snd ch i) (i + 1) (ne n m) in (C', updv (snd ch) i h1) in
  let a := LaBase.repeat i (fun k => f (0 + k)%nat) (nullRows n m, h) in let b := LaBase.repeat i (fun k => f (0 + k)%nat) (nullRows n m, h') in
  fst a = fst b /\ forall r, (r < i)%nat -> (r + 1 < n)%nat -> snd a r = snd b r.
Proof.
  intros i f. induction i; cbn [LaBase.repeat]; cbv zeta in *; [split; [reflexivity|intros; lia]|].
  set (a := LaBase.repeat i (fun k => f (0 + k)%nat) (nullRows n m, h)) in *. set (b := LaBase.repeat i (fun k => f (0 + k)%nat) (nullRows n m, h')) in *.
  destruct IHi as (A & B). unfold f. cbn [Nat.add]. unfold householderSelf. rewrite A. destruct ((i <? i + 1)%nat && (i + 1 <? n)%nat) eqn:G.
  - destruct (hBuild Row i (i + 1) n (fst b) i) as [a' h2]. cbn [fst snd]. split; [reflexivity|]. intros r Hr Hn. unfold updv. destruct (Nat.eqb_spec r i); [reflexivity|]. apply B; auto. lia.
  - cbn [fst snd]. split; [reflexivity|]. intros r Hr Hn. unfold updv. destruct (Nat.eqb_spec r i) as [->|]; [|apply B; auto; lia].
    apply andb_false_iff in G. rewrite !Nat.ltb_ge in G. lia.
Qed.
Lemma frame_indep m h h' : fst (frame n h m) = fst (frame n h' m) /\ forall r, (r < ne n m)%nat -> (r + 1 < n)%nat -> snd (frame n h m) r = snd (frame n h' m) r.
Proof. unfold frame, conDecomp, forUp. rewrite Nat.sub_0_r. exact (decomp_indep m h h' (ne n m)). Qed.
Lemma house_indep m h h' i M : (i < ne n m)%nat ->
  (let '(_, _, M') := householder Row Row H2 i (i + 1) n (fst (frame n h m)) i (snd (frame n h m) i) M 0 1 in M') =
  (let '(_, _, M') := householder Row Row H2 i (i + 1) n (fst (frame n h' m)) i (snd (frame n h' m) i) M 0 1 in M').
Proof.
  intros Hi. destruct (frame_indep m h h') as (A & B). rewrite A. unfold householder. destruct ((i <? i + 1)%nat && (i + 1 <? n)%nat) eqn:G; [|reflexivity].
  apply andb_true_iff in G. rewrite !Nat.ltb_lt in G. rewrite B by lia. reflexivity.
Qed.
Lemma repeat_ext {A} k (f g : nat -> A -> A) s : (forall i s, (i < k)%nat -> f i s = g i s) -> LaBase.repeat k f s = LaBase.repeat k g s.
Proof. intros H. induction k; cbn [LaBase.repeat]; [reflexivity|]. rewrite IHk by (intros; apply H; lia). apply H. lia. Qed.
Lemma toFree_indep h h' : toFree n h = toFree n h'.
Proof.
  apply functional_extensionality. intros m. apply functional_extensionality. intros x. unfold toFree, projUp, forUp.
  erewrite repeat_ext; [reflexivity|]. intros i M Hi. apply house_indep. lia.
Qed.
Lemma fromFree_indep h h' : fromFree n h = fromFree n h'.
Proof.
  apply functional_extensionality. intros m. apply functional_extensionality. intros x. unfold fromFree, projDown, forDown.
  erewrite repeat_ext; [reflexivity|]. intros i M Hi. apply house_indep. lia.
Qed.
Lemma lift_indep h h' : lift n h = lift n h'.
Proof. unfold lift. now rewrite (fromFree_indep h h'). Qed.
Lemma trial_indep h h' m i c : trial n WH WS WV t p redox h m i c -> trial n WH WS WV t p redox h' m i c.
Proof.
  unfold trial, fixed, startFree, fminfn, fmingr. rewrite (lift_indep h h'), (toFree_indep h h'). auto.
Qed.
Lemma searches_indep h h' m cs : searches n WH WS WV t p redox h m cs -> searches n WH WS WV t p redox h' m cs.
Proof.
  intros (l & F & E). exists l. split; [|exact E]. clear E. induction F as [|i o is l T F IH]; constructor; [now apply (trial_indep h h')|exact IH].
Qed.
Lemma scan_indep h h' ms o : scan n WH WS WV t p redox h ms o -> scan n WH WS WV t p redox h' ms o.
Proof. intros S. induction S as [|m ms o S1 S2 IH|m ms z cs S1]; [constructor|apply scan_next; [now apply (searches_indep h h')|exact IH]|apply scan_found; now apply (searches_indep h h')]. Qed.
Variable h0 : nat -> R.
Lemma trial_det m i c c' : trial n WH WS WV t p redox h0 m i c -> trial n WH WS WV t p redox h0 m i c' -> c = c'.
Proof.
  intros (F & r & V & ->) (F' & r' & V' & ->). unfold vmmin in V, V'. destruct (fminfn n WH WS WV t p redox h0 m (fixed n h0 m i) _) as [y|].
  - rewrite (runs_det _ _ _ _ V V'). reflexivity.
  - rewrite V, V'. reflexivity.
Qed.
Lemma searches_det m cs cs' : searches n WH WS WV t p redox h0 m cs -> searches n WH WS WV t p redox h0 m cs' -> cs = cs'.
Proof.
  intros (l & F & ->) (l' & F' & ->). f_equal. revert l' F'. induction F as [|i o is l T F IH]; intros l' F'; inversion F' as [|a b c d T' G]; subst; [reflexivity|].
  f_equal; [exact (trial_det _ _ _ _ T T')|now apply IH].
Qed.
Lemma scan_det ms o o' : scan n WH WS WV t p redox h0 ms o -> scan n WH WS WV t p redox h0 ms o' -> o = o'.
Proof.
  intros S. revert o'. induction S as [|m ms o S1 S2 IH|m ms z cs S1]; intros o' S'; inversion S' as [|a b c S1' S2'|a b c d S1']; subst.
  - reflexivity.
  - now apply IH.
  - pose proof (searches_det _ _ _ S1 S1') as E. discriminate E.
  - pose proof (searches_det _ _ _ S1 S1') as E. discriminate E.
  - pose proof (searches_det _ _ _ S1 S1') as E. injection E as -> ->. reflexivity.
Qed.
Lemma trial_total m i : exists c, trial n WH WS WV t p redox h0 m i c.
Proof.
  destruct (C31_vmmin_returns (nz n m) (fminfn n WH WS WV t p redox h0 m (fixed n h0 m i)) (fmingr n WH WS WV t p redox h0 m (fixed n h0 m i)) reltest
    (fun k => startFree n h0 m i (k + ne n m)%nat) 0 reltest_pos) as (r & V).
  eexists. exists 0, r. split; [exact V|reflexivity].
Qed.
Lemma searches_total m : exists cs, searches n WH WS WV t p redox h0 m cs.
Proof.
  assert (G : exists l, Forall2 (trial n WH WS WV t p redox h0 m) (present n m) l).
  { generalize (present n m). intros is. induction is as [|i is (l & IH)]; [exists []; constructor|]. destruct (trial_total m i) as (c & T). exists (c :: l). now constructor. }
  destruct G as (l & F). exists (somes l), l. split; [exact F|reflexivity].
Qed.
Lemma scan_total ms : exists o, scan n WH WS WV t p redox h0 ms o.
Proof.
  induction ms as [|m ms (o & IH)]; [exists None; constructor|]. destruct (searches_total m) as ([|x cs] & S); eexists; [apply scan_next; eassumption|apply scan_found; eassumption].
Qed.
End D.
Theorem C149_result : forall n WH WS WV t p redox h0 liquidMass liquids, exists liquids' found,
  check n WH WS WV t p redox h0 liquidMass liquids liquids' found /\
  forall h1 liquids'' found', check n WH WS WV t p redox h1 liquidMass liquids liquids'' found' -> liquids'' = liquids' /\ found' = found.
Proof.
  intros n WH WS WV t p redox h0 lm ls. unfold check.
  destruct (Req_EM_T lm 0); [exists ls, false; tauto|]. destruct (Rle_dec t 0); [exists ls, false; tauto|]. destruct (Rlt_dec p 0); [exists ls, false; tauto|].
  destruct (scan_total n WH WS WV t p redox h0 ls) as (o & S).
  exists (match o with None => ls | Some x => divide n x ls end), (match o with None => false | Some _ => true end). split.
  - exists o. split; [exact S|]. destruct o; auto.
  - intros h1 ls2 f2 (o' & S' & E). rewrite <- (scan_det n WH WS WV t p redox h0 ls o o' S (scan_indep n WH WS WV t p redox h1 h0 _ _ S')) in E. destruct o; exact E.
Qed.

(** ** A case for C145 and C146: with no interaction between the components every liquid with all components is stable *)
Lemma kl x r : 0 <= x -> 0 < r -> x - r <= x * ln x - x * ln r.
Proof.
  intros X P. destruct (Req_dec x 0) as [->|N]; [lra|].
  assert (L : ln (r / x) <= r / x - 1).
  { assert (Q : 0 < r / x) by (apply Rdiv_lt_0_compat; lra). destruct (Req_dec (ln (r / x)) 0) as [Z|D].
    - assert (E : r / x = 1) by (apply ln_inv; [exact Q|lra|rewrite ln_1; exact Z]). rewrite E, ln_1. lra.
    - pose proof (exp_ineq1 (ln (r / x)) D) as I. rewrite exp_ln in I by exact Q. lra. }
  unfold Rdiv in L at 1. rewrite ln_mult, ln_Rinv in L by (try apply Rinv_0_lt_compat; lra). apply (Rmult_le_compat_l x) in L; [|lra].
  replace (x * (r / x - 1)) with (r - x) in L by (field; lra). lra.
Qed.

Section I.
Variable n : nat.
Hypothesis N1 : (1 <= n)%nat.
Variables t p : R.
Notation Z0 := (fun _ _ : nat => 0).
Notation NA := (S n).
Lemma pairs_none x : pairs n (W Z0 Z0 Z0 t p) x = 0.
Proof.
  unfold pairs, W. rewrite (MassProofs.sum_ext NA _ (fun _ => 0 * 0)); [rewrite MassProofs.sum_scal; ring|]. intros i Hi.
  rewrite (MassProofs.sum_ext NA _ (fun _ => 0 * 0)); [rewrite MassProofs.sum_scal; ring|]. intros j Hj. destruct (Nat.ltb i j); ring.
Qed.
Lemma slope_none r i : (i < n)%nat -> slope n (W Z0 Z0 Z0 t p) r i = 0.
Proof.
  intros Hi. unfold slope, W. cbv beta. rewrite (MassProofs.sum_ext n _ (fun _ => 0 * 0)); [rewrite MassProofs.sum_scal; ring|].
  intros j Hj. repeat match goal with |- context [if ?b then _ else _] => destruct b end; ring.
Qed.
Lemma ideal_gap ref x : 0 <= t -> (forall i, (i < n)%nat -> 0 < ref i) -> MassModel.sum n ref < 1 -> testR n x -> 0 <= gap n Z0 Z0 Z0 t p ref x.
Proof.
  intros T Pr S1 Tx. unfold gap. assert (Sy : symmetric n Z0) by (intros i j _ _; reflexivity).
  rewrite !gmix_eq, !pairs_none.
  rewrite (MassProofs.sum_ext n _ (fun i => Rg * t * ((ln (ref i) - ln (xr n ref 0)) * (x i - ref i) + (if Nat.eqb i (n - 1) then (ln (xr n ref n) - ln (1 - xr n ref n)) * (x i - ref i) else 0)))).
  2:{ intros i Hi. rewrite dgmix_eq by auto. rewrite slope_none by auto. unfold dent.
      replace (S i =? n)%nat with (i =? n - 1)%nat by (destruct (Nat.eqb_spec i (n - 1)), (Nat.eqb_spec (S i) n); auto; lia). destruct (i =? n - 1)%nat; ring. }
  rewrite MassProofs.sum_scal, MassProofs.sum_plus.
  assert (O : MassModel.sum n (fun i => if Nat.eqb i (n - 1) then (ln (xr n ref n) - ln (1 - xr n ref n)) * (x i - ref i) else 0) = (ln (xr n ref n) - ln (1 - xr n ref n)) * (xr n x n - xr n ref n)).
  { change MassModel.sum with LaSpec.sum. rewrite (LaBase.sum_one n (n - 1) (fun i => (ln (xr n ref n) - ln (1 - xr n ref n)) * (x i - ref i))) by lia.
    destruct n as [|k]; [lia|]. cbn [xr]. replace (S k - 1)%nat with k by lia. reflexivity. }
  rewrite O.
  assert (A : MassModel.sum n (fun i => (ln (ref i) - ln (xr n ref 0)) * (x i - ref i)) = MassModel.sum NA (fun i => (xr n x i - xr n ref i) * ln (xr n ref i))).
  { rewrite sum_first. rewrite (MassProofs.sum_ext n (fun i => (ln (ref i) - ln (xr n ref 0)) * (x i - ref i)) (fun i => (xr n x (S i) - xr n ref (S i)) * ln (xr n ref (S i)) + (- ln (xr n ref 0)) * (x i - ref i))) by (intros; cbn [xr]; ring).
    rewrite MassProofs.sum_plus, MassProofs.sum_scal. rewrite (MassProofs.sum_ext n (fun i => x i - ref i) (fun i => x i + (-1) * ref i)) by (intros; ring). rewrite MassProofs.sum_plus, MassProofs.sum_scal. cbn [xr]. ring. }
  rewrite A. unfold ent. pose proof (testR_xr n x Tx) as X.
  assert (Pn : forall i, (i < NA)%nat -> 0 < xr n ref i) by (intros [|i] Hi; cbn [xr]; [lra|apply Pr; lia]).
  assert (B : 0 <= MassModel.sum NA (fun i => xr n x i * ln (xr n x i)) - MassModel.sum NA (fun i => xr n ref i * ln (xr n ref i)) - MassModel.sum NA (fun i => (xr n x i - xr n ref i) * ln (xr n ref i))).
  { replace 0 with (MassModel.sum NA (xr n x) - MassModel.sum NA (xr n ref)) by (rewrite !(sum_xr n); ring).
    change MassModel.sum with LaSpec.sum. rewrite <- !LaBase.sum_minus. apply Rminus_le. rewrite <- LaBase.sum_minus. apply Ropp_le_cancel. rewrite Ropp_0.
    rewrite <- (Rmult_1_l (LaSpec.sum NA _)), Ropp_mult_distr_l, <- LaBase.sum_scal. apply LaBase.sum_pos. intros i Hi. pose proof (kl (xr n x i) (xr n ref i) (X i Hi) (Pn i Hi)). lra. }
  assert (W1 : xr n ref n < 1).
  { assert (Q : xr n ref n <= MassModel.sum n ref); [|lra]. destruct n as [|k]; [lia|]. cbn [xr]. apply (LiqProps.sum_ge (S k) ref k); [intros i Hi; left; now apply Pr|lia]. }
  assert (X1 : xr n x n <= 1).
  { destruct n as [|k]; [lia|]. cbn [xr]. apply Tx. lia. }
  pose proof (kl (xr n x n) (xr n ref n) (X n ltac:(lia)) (Pn n ltac:(lia))) as K1. pose proof (kl (1 - xr n x n) (1 - xr n ref n) ltac:(lra) ltac:(lra)) as K2.
  assert (Rp : 0 <= Rg * t) by (apply Rmult_le_pos; [unfold Rg; lra|exact T]).
  set (s1 := MassModel.sum NA (fun i => xr n x i * ln (xr n x i))) in *. set (s2 := MassModel.sum NA (fun i => xr n ref i * ln (xr n ref i))) in *. set (s3 := MassModel.sum NA (fun i => (xr n x i - xr n ref i) * ln (xr n ref i))) in *.
  set (xw := xr n x n) in *. set (rw := xr n ref n) in *. set (l1 := ln xw) in *. set (l2 := ln rw) in *. set (l3 := ln (1 - xw)) in *. set (l4 := ln (1 - rw)) in *.
  replace (0 + Rg * t * (s1 + (xw * l1 + (1 - xw) * l3)) - (0 + Rg * t * (s2 + (rw * l2 + (1 - rw) * l4))) - Rg * t * (s3 + (l2 - l4) * (xw - rw)))
    with (Rg * t * ((s1 - s2 - s3) + ((xw * l1 - xw * l2) + ((1 - xw) * l3 - (1 - xw) * l4)))) by ring.
  apply Rmult_le_pos; [exact Rp|]. lra.
Qed.
End I.
Theorem C145_case : forall mu0 t p h0 liquidMass, 0 < t -> let m := fun _ : nat => 1 in
  proper_liquid NR m /\ stable NR (byPair (fun _ => 0)) (byPair (fun _ => 0)) (byPair (fun _ => 0)) mu0 t p m /\
  forall liquids' found, check NR (byPair (fun _ => 0)) (byPair (fun _ => 0)) (byPair (fun _ => 0)) t p None h0 liquidMass [m] liquids' found -> found = false /\ liquids' = [m].
Proof.
  intros mu0 t p h0 lm T m. assert (E : byPair (fun _ => 0) = fun _ _ : nat => 0).
  { apply functional_extensionality. intros i. apply functional_extensionality. intros j. unfold byPair. destruct (index i j); reflexivity. }
  rewrite E. assert (Pm : proper_liquid NR m) by (split; unfold m; intros; lra).
  assert (St : stable NR (fun _ _ => 0) (fun _ _ => 0) (fun _ _ => 0) mu0 t p m).
  { apply C146_stable; [unfold NR; lia|exact Pm|]. intros x Hx.
    assert (R1 : forall i, rOf NR m i = 1 / 19).
    { intros i. unfold rOf, total, m, isZ, NR. cbn [MassModel.sum]. destruct (Req_EM_T _ 0); [lra|]. lra. }
    apply ideal_gap; [unfold NR; lia|lra|intros i Hi; rewrite R1; lra| |exact Hx].
    rewrite (MassProofs.sum_ext NR _ (fun _ => 1 / 19)) by (intros; apply R1). unfold NR. cbn [MassModel.sum]. lra. }
  split; [exact Pm|]. split; [exact St|]. intros ls' found C.
  assert (Sy : symmetric NR (fun _ _ : nat => 0)) by (intros i j _ _; reflexivity).
  apply (C145_stable_liquids_are_kept NR _ _ _ t p h0 mu0 lm [m] ls' found Sy Sy Sy); [unfold NR; lia| |exact C]. intros q [<-|[]]. split; assumption.
Qed.
