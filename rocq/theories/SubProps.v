(** Properties C171 and C174: the oxygen potential of an assemblage of solids, and bringing it to a given value. *)
From Coq Require Import Reals List Lia Lra Bool Arith.
From Verif Require Import MassModel MassSpec MassProofs HessModel SubModel SubSpec SubProofs SubRun.
Import ListNotations.
Open Scope R_scope.

Section Props.
Variable tab : Tab.
Variables feo fe2o3 : nat.
Hypothesis Iron : ironTable tab feo fe2o3.
Notation isFeO := (fun o => Nat.eqb o feo).
Notation good s f := (svdOf (svRows tab s) (colsN tab s) (svMat tab s) f).

Lemma reached_ok c : Reached tab feo c -> cacheOk tab feo fe2o3 c.
Proof.
  destruct Iron as (I1 & I2 & I3 & I4). intros H. induction H as [|dat t p c s f R IH Sn Sv|dat t p c s f target b c' s' R IH Sn Sv B].
  - intros q E. discriminate.
  - unfold muFirst. destruct (noSolids tab s); [exact IH|]. pose proof (getReaction_ok tab feo fe2o3 I1 I2 I3 I4 c s f IH Sn Sv) as Q.
    destruct (getReaction tab isFeO c s f) as [[d|] c']; exact Q.
  - pose proof (getReaction_ok tab feo fe2o3 I1 I2 I3 I4 c s f IH Sn Sv) as Q. destruct B as [N|c' N G|d c' b s' N G S]; [exact IH| |]; rewrite G in Q; exact Q.
Qed.

(** C171: for every assemblage of solids in equilibrium among whose components a reaction oxidising FeO to Fe2O3 can be
    written, and after any calls whatever, the potential is that of oxygen in the assemblage. *)
Theorem C171_oxygen_potential dat t p c s f e psi : Reached tab feo c -> sensible tab s -> good s f ->
  oxidises tab feo fe2o3 s e -> inEquilibrium tab dat t p psi s -> measurable tab dat t p s ->
  fst (muFirst tab isFeO dat t p c s f) = (true, oxygenPotential feo fe2o3 dat t p psi).
Proof.
  destruct Iron as (I1 & I2 & I3 & I4). intros R Sn Sv Ox Eq Ms. unfold muFirst. rewrite (solids_there tab feo fe2o3 I1 I2 I3 s e Sn Ox).
  destruct (getReaction_balances tab feo fe2o3 I1 I2 I3 I4 c s f e (reached_ok c R) Sn Sv Ox) as (d & G & B).
  destruct (getReaction tab isFeO c s f) as [o c']. cbn [fst] in G. rewrite G. cbn [fst]. f_equal.
  now apply (mu_equilibrium tab feo fe2o3 I2 I3).
Qed.
(** and so is the fugacity that is reported *)
Theorem C171_reported dat t p c s f e psi : Reached tab feo c -> sensible tab s -> good s f ->
  oxidises tab feo fe2o3 s e -> inEquilibrium tab dat t p psi s -> measurable tab dat t p s ->
  reported tab isFeO dat t p c s f = oxygenPotential feo fe2o3 dat t p psi / (Rgas * t * ln 10).
Proof. intros R Sn Sv Ox Eq Ms. unfold reported. now rewrite (C171_oxygen_potential dat t p c s f e psi). Qed.

(** C174: whatever the answer, the solids keep every oxide but those of iron, and all the iron; nothing but the solids and the
    bulk composition is written. If the answer is TRUE the bulk composition is that of the solids, every phase is possible
    unless nothing was done, and the oxygen potential, if the same components are there in equilibrium, is the one asked for. *)
Theorem C174_buffered dat t p c target s f e b c' s' : Reached tab feo c -> sensible tab s -> good s f -> layout tab -> counts tab s ->
  oxidises tab feo fe2o3 s e -> (forall o, (o < nc tab)%nat -> bulk s o = MassSpec.inSolids tab (oxide tab o) s) ->
  Buffer tab isFeO dat t p c target s f b c' s' ->
  kept s s' /\
  (forall o, (o < nc tab)%nat -> o <> feo -> o <> fe2o3 -> MassSpec.inSolids tab (oxide tab o) s' = MassSpec.inSolids tab (oxide tab o) s) /\
  MassSpec.inSolids tab (oxide tab feo) s' + 2 * MassSpec.inSolids tab (oxide tab fe2o3) s' = MassSpec.inSolids tab (oxide tab feo) s + 2 * MassSpec.inSolids tab (oxide tab fe2o3) s /\
  (b = true ->
    (forall o, (o < nc tab)%nat -> bulk s' o = MassSpec.inSolids tab (oxide tab o) s') /\
    (s' = s \/ ((forall o, (o < nc tab)%nat -> 0 <= bulk s' o) /\
               (forall i, (i < npc tab)%nat -> isPhase tab i = true ->
                  if Nat.eqb (na tab i) 1 then 0 <= solC s' i 0 else forall k, (k < nSol s' i)%nat -> dTest dat i (fun j => solC s' (i + 1 + j)%nat k) = true))) /\
    (forall psi, sensible tab s' -> cols tab s' = cols tab s -> measurable tab dat t p s' -> inEquilibrium tab dat t p psi s' ->
       Rabs (oxygenPotential feo fe2o3 dat t p psi - target) < SqrtEps)).
Proof.
  destruct Iron as (I1 & I2 & I3 & I4). intros R Sn Sv Lay Cn Ox Bk B.
  destruct (getReaction_balances tab feo fe2o3 I1 I2 I3 I4 c s f e (reached_ok c R) Sn Sv Ox) as (d & G & [B0 Bd]).
  destruct B as [N|c' N G'|d' c' b s' N G' S].
  - rewrite (solids_there tab feo fe2o3 I1 I2 I3 s e Sn Ox) in N. discriminate.
  - rewrite G' in G. discriminate.
  - rewrite G' in G. cbn [fst] in G. injection G as ->.
    destruct (steps_move tab Lay dat t p (cols tab s) d target (molesO2 tab s) s b s' S Cn (fun c => cols_place tab s c Sn)) as (x & [K M] & Q).
    assert (W : forall o, (o < nc tab)%nat -> change (cols tab s) d (oxide tab o) = want feo fe2o3 o) by (intros o Ho; rewrite <- (Bd o Ho); reflexivity).
    split; [exact K|]. split; [|split].
    + intros o Ho N1 N2. rewrite M, (W o Ho). unfold want. apply Nat.eqb_neq in N1, N2. rewrite N1, N2. ring.
    + rewrite !M, (W feo I2), (W fe2o3 I3). unfold want. rewrite !Nat.eqb_refl. destruct (Nat.eqb_spec feo fe2o3); [contradiction|]. destruct (Nat.eqb_spec fe2o3 feo); [congruence|]. ring.
    + intros Hb. destruct (Q Hb) as [St Mu]. split; [|split].
      * destruct St as [E|[St _]]; [rewrite E; exact Bk|]. intros o Ho. apply (St o Ho).
      * destruct St as [E|[St Ph]]; [now left|right]. split; [intros o Ho; apply (St o Ho)|]. intros i Hi Pi. pose proof (allb_in _ _ i Ph Hi) as A. cbv beta in A. rewrite Pi in A.
        destruct (Nat.eqb (na tab i) 1); [destruct (Rlt_dec (solC s' i 0) 0); [discriminate|lra]|]. intros k Hk. exact (allb_in _ _ k A Hk).
      * intros psi Sn' Ec Ms Eq. rewrite <- (mu_equilibrium tab feo fe2o3 I2 I3 dat t p s' d psi Sn' Ms Eq); [rewrite Ec; exact Mu|]. split; [exact B0|]. rewrite Ec. exact Bd.
Qed.
End Props.
