(** The result of checkForCoexistingSolids: unique, independent of what earlier calls left behind, and when there is one: C155. *)
From Coq Require Import Reals List Bool Arith Lia Lra FunctionalExtensionality.
From Verif Require Import MassModel MassSpec MassProofs MassOps MassDrop MassProps LiqModel LaSpec LaBase HhModel QuadModel NashModel NashSpec NashProofs NashProps CoexModel CoexProps CoexGrad CoexSolModel CoexSolProps CoexSolMore.
Import List ListNotations.
Open Scope R_scope.

(** ** The change of variables does not depend on the contents of hVec *)
Section H.
Variables (ne nr : nat) (C : mat).
Lemma decomp_indepG h h' : forall i, let f := fun i ch => let '(C', h1) := householderSelf Row Row i (i + 1) nr (fst ch) i (snd ch i) (i + 1) ne in (C', updv (snd ch) i h1) in
  let a := LaBase.repeat i (fun k => f (0 + k)%nat) (C, h) in let b := LaBase.repeat i (fun k => f (0 + k)%nat) (C, h') in
  fst a = fst b /\ forall r, (r < i)%nat -> (r + 1 < nr)%nat -> snd a r = snd b r.
Proof.
  intros i f. induction i; cbn [LaBase.repeat]; cbv zeta in *; [split; [reflexivity|intros; lia]|].
  set (a := LaBase.repeat i (fun k => f (0 + k)%nat) (C, h)) in *. set (b := LaBase.repeat i (fun k => f (0 + k)%nat) (C, h')) in *.
  destruct IHi as (A & B). unfold f. cbn [Nat.add]. unfold householderSelf. rewrite A. destruct ((i <? i + 1)%nat && (i + 1 <? nr)%nat) eqn:G.
  - destruct (hBuild Row i (i + 1) nr (fst b) i) as [a' h2]. cbn [fst snd]. split; [reflexivity|]. intros r Hr Hn. unfold updv. destruct (Nat.eqb_spec r i); [reflexivity|]. apply B; auto. lia.
  - cbn [fst snd]. split; [reflexivity|]. intros r Hr Hn. unfold updv. destruct (Nat.eqb_spec r i) as [->|]; [|apply B; auto; lia].
    apply andb_false_iff in G. rewrite !Nat.ltb_ge in G. lia.
Qed.
Lemma conDecomp_indep h h' : fst (conDecomp ne nr C h) = fst (conDecomp ne nr C h') /\ forall r, (r < ne)%nat -> (r + 1 < nr)%nat -> snd (conDecomp ne nr C h) r = snd (conDecomp ne nr C h') r.
Proof. unfold conDecomp, forUp. rewrite Nat.sub_0_r. exact (decomp_indepG h h' ne). Qed.
Lemma house_indepG h h' i M : (i < ne)%nat ->
  (let '(_, _, M') := householder Row Row H2 i (i + 1) nr (fst (conDecomp ne nr C h)) i (snd (conDecomp ne nr C h) i) M 0 1 in M') =
  (let '(_, _, M') := householder Row Row H2 i (i + 1) nr (fst (conDecomp ne nr C h')) i (snd (conDecomp ne nr C h') i) M 0 1 in M').
Proof.
  intros Hi. destruct (conDecomp_indep h h') as (A & B). rewrite A. unfold householder. destruct ((i <? i + 1)%nat && (i + 1 <? nr)%nat) eqn:G; [|reflexivity].
  apply andb_true_iff in G. rewrite !Nat.ltb_lt in G. rewrite B by lia. reflexivity.
Qed.
End H.

Section D.
Variable X : Solid.
Variables t p : R.
Lemma toFreeS_indep h h' : toFreeS X h = toFreeS X h'.
Proof.
  apply functional_extensionality. intros m. apply functional_extensionality. intros x. unfold toFreeS, projUp, forUp, frameS.
  erewrite repeat_ext; [reflexivity|]. intros i M Hi. apply house_indepG. lia.
Qed.
Lemma fromFreeS_indep h h' : fromFreeS X h = fromFreeS X h'.
Proof.
  apply functional_extensionality. intros m. apply functional_extensionality. intros x. unfold fromFreeS, projDown, forDown, frameS.
  erewrite repeat_ext; [reflexivity|]. intros i M Hi. apply house_indepG. lia.
Qed.
Lemma liftS_indep h h' : liftS X h = liftS X h'.
Proof. unfold liftS. now rewrite (fromFreeS_indep h h'). Qed.
Lemma trialS_indep h h' m i c : trialS X t p h m i c -> trialS X t p h' m i c.
Proof. unfold trialS, fixedS, startFreeS, fminfnS, fmingrS. rewrite (liftS_indep h h'), (toFreeS_indep h h'). auto. Qed.
Lemma searchesS_indep h h' m cs : searchesS X t p h m cs -> searchesS X t p h' m cs.
Proof. intros (l & F & E). exists l. split; [|exact E]. clear E. induction F as [|i o is l T F IH]; constructor; [now apply (trialS_indep h h')|exact IH]. Qed.
Lemma scanS_indep h h' ms o : scanS X t p h ms o -> scanS X t p h' ms o.
Proof. intros S. induction S as [|m ms o S1 S2 IH|m ms z cs S1]; [constructor|apply scanS_next; [now apply (searchesS_indep h h')|exact IH]|apply scanS_found; now apply (searchesS_indep h h')]. Qed.
Variable h0 : nat -> R.
Lemma trialS_det m i c c' : trialS X t p h0 m i c -> trialS X t p h0 m i c' -> c = c'.
Proof.
  intros (F & r & V & ->) (F' & r' & V' & ->). unfold vmmin in V, V'. destruct (fminfnS X t p h0 m (fixedS X h0 m i) _) as [y|].
  - rewrite (runs_det _ _ _ _ V V'). reflexivity.
  - rewrite V, V'. reflexivity.
Qed.
Lemma searchesS_det m cs cs' : searchesS X t p h0 m cs -> searchesS X t p h0 m cs' -> cs = cs'.
Proof.
  intros (l & F & ->) (l' & F' & ->). f_equal. revert l' F'. induction F as [|i o is l T F IH]; intros l' F'; inversion F' as [|a b c d T' G]; subst; [reflexivity|].
  f_equal; [exact (trialS_det _ _ _ _ T T')|now apply IH].
Qed.
Lemma scanS_det ms o o' : scanS X t p h0 ms o -> scanS X t p h0 ms o' -> o = o'.
Proof.
  intros S. revert o'. induction S as [|m ms o S1 S2 IH|m ms z cs S1]; intros o' S'; inversion S' as [|a b c S1' S2'|a b c d S1']; subst.
  - reflexivity.
  - now apply IH.
  - pose proof (searchesS_det _ _ _ S1 S1') as E. discriminate E.
  - pose proof (searchesS_det _ _ _ S1 S1') as E. discriminate E.
  - pose proof (searchesS_det _ _ _ S1 S1') as E. injection E as -> ->. reflexivity.
Qed.
Lemma trialS_total m i : exists c, trialS X t p h0 m i c.
Proof.
  destruct (C31_vmmin_returns (nzS X m) (fminfnS X t p h0 m (fixedS X h0 m i)) (fmingrS X t p h0 m (fixedS X h0 m i)) reltest
    (fun k => startFreeS X h0 m i (k + neS X m)%nat) 0 reltest_pos) as (r & V).
  eexists. exists 0, r. split; [exact V|reflexivity].
Qed.
Lemma searchesS_total m : exists cs, searchesS X t p h0 m cs.
Proof.
  assert (G : exists l, Forall2 (trialS X t p h0 m) (presentS X m) l).
  { generalize (presentS X m). intros is. induction is as [|i is (l & IH)]; [exists []; constructor|]. destruct (trialS_total m i) as (c & T). exists (c :: l). now constructor. }
  destruct G as (l & F). exists (somes l), l. split; [exact F|reflexivity].
Qed.
Lemma scanS_total ms : exists o, scanS X t p h0 ms o.
Proof.
  induction ms as [|m ms (o & IH)]; [exists None; constructor|]. destruct (searchesS_total m) as ([|x cs] & S); eexists; [apply scanS_next; eassumption|apply scanS_found; eassumption].
Qed.
End D.

Section Call.
Variable tab : Tab.
Variable solid : nat -> Solid.
Variable kind : nat -> Kind.
Variables t p : R.
Notation visit := (visit tab solid kind t p).
Notation visits := (visits tab solid kind t p).
Notation checkSolids := (checkSolids tab solid kind t p).
Lemma amountIn_det i x s a b b' : amountIn tab i x s a b -> amountIn tab i x s a b' -> b = b'.
Proof. intros A. revert b'. induction A as [a E|a b E A IH]; intros b' A'; inversion A' as [a1 E1|a1 b1 E1 A1]; subst; try congruence; auto. Qed.
Lemma amountOf_det i x s b b' : amountOf tab i x s b -> amountOf tab i x s b' -> b = b'.
Proof. unfold amountOf. destruct (hasLiquid s); [apply amountIn_det|congruence]. Qed.
Lemma visit_det h h' i s s1 f1 s2 f2 : visit h i s s1 f1 -> visit h' i s s2 f2 -> s2 = s1 /\ f2 = f1.
Proof.
  unfold CoexSolModel.visit. destruct (na tab i <=? 1)%nat; [intros (-> & ->) (-> & ->); auto|]. destruct (blocked (kind i) (nSol s i)); [intros (-> & ->) (-> & ->); auto|].
  intros (o & S & A) (o' & S' & A'). apply (scanS_indep _ _ _ h' h) in S'. rewrite (scanS_det _ _ _ _ _ _ _ S' S) in A'. destruct o as [x|].
  - destruct A as (a & A1 & -> & ->), A' as (a' & A1' & -> & ->). rewrite (amountOf_det _ _ _ _ _ A1' A1). auto.
  - destruct A as (-> & ->), A' as (-> & ->). auto.
Qed.
Lemma visits_det h h' l s s1 f1 s2 f2 : visits h l s s1 f1 -> visits h' l s s2 f2 -> s2 = s1 /\ f2 = f1.
Proof.
  intros V. revert s2 f2. induction V as [s|i l s s1 s2 f g V1 V2 IH]; intros s3 f3 V3; inversion V3 as [|i' l' q1 q2 q3 g1 g2 W1 W2]; subst; [auto|].
  destruct (visit_det _ _ _ _ _ _ _ _ V1 W1) as (-> & ->). destruct (IH _ _ W2) as (-> & ->). auto.
Qed.
(** ** C155: one result, whatever earlier calls left behind *)
Theorem C155_result_unique : forall h h' s s1 f1 s2 f2, checkSolids h s s1 f1 -> checkSolids h' s s2 f2 -> s2 = s1 /\ f2 = f1.
Proof.
  intros h h' s s1 f1 s2 f2. unfold CoexSolModel.checkSolids. destruct (Rle_dec t 0); [intros (-> & ->) (-> & ->); auto|]. destruct (Rlt_dec p 0); [intros (-> & ->) (-> & ->); auto|].
  apply visits_det.
Qed.
Variable h0 : nat -> R.
(** the amount of liquid component j in one mole of composition x *)
Definition demand (i : nat) (x : nat -> R) (j : nat) : R := MassModel.sum (na tab i) (fun k => solToLiq tab (i + 1 + k) j * x k).
(** the first liquid has some of every component that composition x of phase i needs *)
Definition supplied (i : nat) (x : nat -> R) (s : St) : Prop := forall j, (j < nlc tab)%nat -> 0 < liqC s 0 j \/ (0 <= liqC s 0 j /\ demand i x j <= 0).
Lemma drawn_eq i x a s j : CoexSolModel.drawn tab i x a s j = liqC s 0 j - a * demand i x j.
Proof.
  unfold CoexSolModel.drawn, demand. f_equal. rewrite <- MassProofs.sum_scal. apply MassProofs.sum_ext. intros k _. ring.
Qed.
Lemma supply_small i x s n : supplied i x s -> (n <= nlc tab)%nat -> exists e, 0 < e /\ forall a, 0 < a <= e -> forall j, (j < n)%nat -> 0 <= liqC s 0 j - a * demand i x j.
Proof.
  intros Su. induction n; intros Hn; [exists 1; split; [lra|intros; lia]|]. destruct (IHn ltac:(lia)) as (e & E & H).
  destruct (Su n ltac:(lia)) as [P|(P & D)].
  - exists (Rmin e (liqC s 0 n / (1 + Rabs (demand i x n)))). assert (Q : 0 < liqC s 0 n / (1 + Rabs (demand i x n))) by (apply Rdiv_lt_0_compat; [exact P|pose proof (Rabs_pos (demand i x n)); lra]).
    split; [apply Rmin_pos; assumption|]. intros a Ha j Hj. assert (A1 : a <= e) by (destruct Ha as (_ & Ha); eapply Rle_trans; [exact Ha|apply Rmin_l]).
    assert (A2 : a <= liqC s 0 n / (1 + Rabs (demand i x n))) by (destruct Ha as (_ & Ha); eapply Rle_trans; [exact Ha|apply Rmin_r]).
    destruct (Nat.eq_dec j n) as [->|]; [|apply H; [lra|lia]]. set (d := demand i x n) in *. pose proof (Rabs_pos d) as Ap. pose proof (Rle_abs d) as Ad.
    apply (Rmult_le_compat_r (1 + Rabs d)) in A2; [|lra]. unfold Rdiv in A2. rewrite Rmult_assoc, Rinv_l, Rmult_1_r in A2 by lra.
    assert (a * d <= a * Rabs d) by (apply Rmult_le_compat_l; lra). nra.
  - exists e. split; [exact E|]. intros a Ha j Hj. destruct (Nat.eq_dec j n) as [->|]; [|apply H; [lra|lia]]. assert (a * demand i x n <= 0) by nra. lra.
Qed.
Lemma amountIn_exists i x s a : 0 < a -> supplied i x s -> exists b, amountIn tab i x s a b.
Proof.
  intros A Su. destruct (supply_small i x s (nlc tab) Su (Nat.le_refl _)) as (e & E & H).
  assert (Q : forall n a, 0 < a -> a * (1 / 2) ^ n <= e -> exists b, amountIn tab i x s a b).
  { clear a A. induction n; intros a A L.
    - exists a. apply amount_ok. unfold liquidOK. apply forallb_forall. intros j I. apply in_seq in I. apply leb_true. rewrite drawn_eq. apply H; [cbn [pow] in L; lra|lia].
    - destruct (liquidOK tab (CoexSolModel.drawn tab i x a s)) eqn:O; [exists a; now apply amount_ok|].
      destruct (IHn (a * (1 / 2))) as (b & B); [lra|cbn [pow] in L; lra|]. exists b. now apply amount_half. }
  destruct (pow_lt_1_zero (1 / 2) ltac:(rewrite Rabs_pos_eq; lra) (e / a) ltac:(apply Rdiv_lt_0_compat; assumption)) as (n & Hn).
  apply (Q n a A). specialize (Hn n (Nat.le_refl _)). rewrite Rabs_pos_eq in Hn by (apply pow_le; lra). apply (Rmult_lt_compat_l a) in Hn; [|exact A].
  replace (a * (e / a)) with e in Hn by (field; lra). lra.
Qed.
Lemma supplied_dec i x s : supplied i x s \/ exists j, (j < nlc tab)%nat /\ (liqC s 0 j < 0 \/ liqC s 0 j = 0 /\ 0 < demand i x j).
Proof.
  unfold supplied. generalize (nlc tab). induction n as [|n IH]; [left; intros; lia|]. destruct IH as [IH|(j & Hj & B)]; [|right; exists j; split; [lia|exact B]].
  destruct (Rlt_dec (liqC s 0 n) 0) as [L|L]; [right; exists n; split; [lia|now left]|].
  destruct (Rlt_dec 0 (liqC s 0 n)) as [P|P]; [left; intros j Hj; destruct (Nat.eq_dec j n) as [->|]; [now left|apply IH; lia]|].
  destruct (Rle_dec (demand i x n) 0) as [Q|Q].
  - left. intros j Hj. destruct (Nat.eq_dec j n) as [->|]; [right; lra|apply IH; lia].
  - right. exists n. split; [lia|]. right. lra.
Qed.
Lemma visit_exists i s : (exists s' f, visit h0 i s s' f) \/
  (hasLiquid s = true /\ exists x, scanS (solid i) t p h0 (instances i s) (Some x) /\ exists j, (j < nlc tab)%nat /\ (liqC s 0 j < 0 \/ liqC s 0 j = 0 /\ 0 < demand i (sX (solid i) x) j)).
Proof.
  unfold CoexSolModel.visit. destruct (na tab i <=? 1)%nat; [left; eauto|]. destruct (blocked (kind i) (nSol s i)); [left; eauto|].
  destruct (scanS_total (solid i) t p h0 (instances i s)) as ([x|] & S); [|left; exists s, false, None; auto].
  destruct (hasLiquid s) eqn:HL.
  - destruct (supplied_dec i (sX (solid i) x) s) as [Su|Un]; [|right; split; [reflexivity|exists x; auto]]. left.
    destruct (amountIn_exists i (sX (solid i) x) s MassModel.MASSIN ltac:(unfold MassModel.MASSIN; lra) Su) as (a & A).
    exists (addSecondSolid tab i (sX (solid i) x) a s), true, (Some x). split; [exact S|]. exists a. split; [unfold amountOf; rewrite HL; exact A|auto].
  - left. exists (addSecondSolid tab i (sX (solid i) x) MassModel.MASSIN s), true, (Some x). split; [exact S|]. exists MassModel.MASSIN. split; [unfold amountOf; now rewrite HL|auto].
Qed.
(** ** C155: there is a result, unless at some point the first liquid lacks a component that a phase to be added is made of *)
Theorem C155_result_or_lack : forall s, (exists s' found, checkSolids h0 s s' found) \/
  (hasLiquid s = true /\ exists l i s1 f x j, visits h0 l s s1 f /\ (i < npc tab)%nat /\ scanS (solid i) t p h0 (instances i s1) (Some x) /\ (j < nlc tab)%nat /\
     (liqC s1 0 j < 0 \/ liqC s1 0 j = 0 /\ 0 < demand i (sX (solid i) x) j)).
Proof.
  intros s. unfold CoexSolModel.checkSolids. destruct (Rle_dec t 0); [left; eauto|]. destruct (Rlt_dec p 0); [left; eauto|].
  assert (Q : forall l s, (forall i, In i l -> (i < npc tab)%nat) -> (exists s' found, visits h0 l s s' found) \/
    (hasLiquid s = true /\ exists l i s1 f x j, visits h0 l s s1 f /\ (i < npc tab)%nat /\ scanS (solid i) t p h0 (instances i s1) (Some x) /\ (j < nlc tab)%nat /\
     (liqC s1 0 j < 0 \/ liqC s1 0 j = 0 /\ 0 < demand i (sX (solid i) x) j))).
  { induction l as [|i l IH]; intros s0 Hl; [left; exists s0, false; constructor|].
    destruct (visit_exists i s0) as [(s1 & f & V)|(HL & x & S & j & Hj & B)].
    - assert (HL : hasLiquid s1 = hasLiquid s0).
      { unfold CoexSolModel.visit in V. destruct (na tab i <=? 1)%nat; [destruct V as (-> & _); reflexivity|]. destruct (blocked (kind i) (nSol s0 i)); [destruct V as (-> & _); reflexivity|].
        destruct V as ([x|] & Sc & V); [|destruct V as (-> & _); reflexivity]. destruct V as (a & _ & -> & _).
        destruct (scan_someS _ _ _ _ _ _ Sc) as (q & k & I & _). assert (Pos : (0 < nSol s0 i)%nat) by (unfold instances in I; destruct (nSol s0 i); [destruct I|lia]).
        destruct (addSecondSolid_cells tab i (sX (solid i) x) a s0 Pos) as (_ & E & _). exact E. }
      destruct (IH s1 (fun j I => Hl j (or_intror I))) as [(s2 & g & W)|(HL1 & l1 & i1 & s2 & f2 & x & j & W & K)].
      + left. exists s2, (f || g). eapply visits_next; eassumption.
      + right. split; [congruence|]. exists (i :: l1), i1, s2, (f || f2), x, j. split; [eapply visits_next; eassumption|exact K].
    - right. split; [exact HL|]. exists [], i, s0, false, x, j. split; [constructor|]. split; [apply Hl; now left|]. split; [exact S|]. split; assumption. }
  apply Q. intros i I. apply in_seq in I. lia.
Qed.
Theorem C155_result_without_liquid : forall s, hasLiquid s = false -> exists s' found, checkSolids h0 s s' found.
Proof. intros s HL. destruct (C155_result_or_lack s) as [R|(E & _)]; [exact R|congruence]. Qed.
End Call.
