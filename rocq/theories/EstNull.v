(** getAffinityAndComposition: excluded end-members stay out, up to rounding. *)
From Coq Require Import Reals List Bool Arith Lra Lia.
From Verif Require Import MassModel LiqModel LaSpec LaBase HhModel HhProofs HftiProofs FullRank QuadModel QuadProofs NashModel NashSpec CoexModel CoexSolModel EstModel EstProofs EstProps.
Import ListNotations.
Open Scope R_scope.
Section Null.
Variable X : Solid.
Variable act : (nat -> R) -> nat -> R.
Variable dact : (nat -> R) -> nat -> nat -> R.
Variable hess : (nat -> R) -> mat.
Variable rq : nat -> mat -> vec -> option vec.
Variables t p : R.
Variable h0 : nat -> R.
Variable F0 : R.
Variable zeroX : nat -> bool.
Variable muIn : nat -> R.
Notation na := (sNa X). Notation nr := (sNr X).
Notation ne := (neE X zeroX). Notation nz := (nzE X zeroX).
(** The mole fractions are linear in the composition variables: x, with the slopes that the phase reports *)
Record affine (x : (nat -> R) -> nat -> R) : Prop := mkAffine {
  aff_of : forall m i, LaSpec.sum na m = 1 -> (i < na)%nat -> x (sR X m) i = m i;
  aff_dx : forall r r' i, (i < na)%nat -> x r' i - x r i = LaSpec.sum nr (fun j => sDx X r i j * (r' j - r j)) }.
Lemma count_sum (f : nat -> R) n : LaSpec.sum n (fun i => if zeroX i then 0 else f (place zeroX i)) = LaSpec.sum (place zeroX n) f.
Proof.
  induction n as [|n IH]; [reflexivity|]. cbn [LaSpec.sum]. rewrite IH. unfold place. rewrite seq_S, filter_app, app_length. cbn [filter Nat.add].
  destruct (zeroX n); cbn [negb length]; [rewrite Nat.add_0_r; ring|]. rewrite Nat.add_1_r. reflexivity.
Qed.
Lemma place_na : place zeroX na = nz. Proof. reflexivity. Qed.
Lemma guess_one : nz <> 0%nat -> LaSpec.sum nz (guessX X t zeroX muIn) = 1.
Proof.
  intro NZ. unfold guessX. destruct (Nat.eqb_spec nz 1) as [E|E]; [rewrite E; cbn; ring|].
  set (n2 := (nz - 2)%nat). replace nz with (S (S n2)) at 1 by (unfold n2; lia). cbn [LaSpec.sum].
  rewrite Nat.ltb_irrefl, Nat.eqb_refl. rewrite (proj2 (Nat.ltb_ge (S n2) n2)) by lia. rewrite (proj2 (Nat.eqb_neq (S n2) n2)) by lia.
  rewrite (LaBase.sum_ext n2 _ (fun j => guessF X t zeroX muIn j * guessLast X t zeroX muIn)); [change MassModel.sum with LaSpec.sum; ring|].
  intros i Hi. rewrite (proj2 (Nat.ltb_lt i n2)) by exact Hi. reflexivity.
Qed.
Lemma full_one : nz <> 0%nat -> LaSpec.sum na (guessFull X t zeroX muIn) = 1.
Proof. intro NZ. rewrite <- (guess_one NZ), <- place_na, <- count_sum. apply LaBase.sum_ext. intros i Hi. reflexivity. Qed.
Lemma sum_abs n (f g : nat -> R) c : 0 <= c -> (forall i, (i < n)%nat -> Rabs (g i) <= c) -> Rabs (LaSpec.sum n (fun i => f i * g i)) <= LaSpec.sum n (fun i => Rabs (f i)) * c.
Proof.
  intros Hc. induction n as [|n IH]; intro G; cbn [LaSpec.sum]; [rewrite Rabs_R0; lra|].
  eapply Rle_trans; [apply Rabs_triang|]. rewrite Rmult_plus_distr_r. apply Rplus_le_compat; [apply IH; intros; apply G; lia|].
  rewrite Rabs_mult. apply Rmult_le_compat_l; [apply Rabs_pos|apply G; lia].
Qed.
Lemma nulls_of i : (i < na)%nat -> zeroX i = true -> exists k, (k < ne)%nat /\ nth k (nullsE X zeroX) k = i.
Proof.
  intros Hi Zi. destruct (In_nth (nullsE X zeroX) i 0%nat) as (k & K1 & K2).
  { unfold nullsE. apply filter_In. split; [apply in_seq; lia|exact Zi]. }
  exists k. split; [exact K1|]. rewrite (nth_indep _ k 0%nat K1). exact K2.
Qed.
Variable x : (nat -> R) -> nat -> R.
Hypothesis AF : affine x.
(** every composition made from free variables has next to nothing of the excluded end-members *)
Lemma lift_null b i : na = S nr -> nz <> 0%nat -> (i < na)%nat -> zeroX i = true ->
  Rabs (x (liftE X t h0 zeroX muIn b) i) <= LaSpec.sum nr (fun j => Rabs (sDx X (guessR X t zeroX muIn) i j)) * ((INR nr + 1) * (10 * dblEps)).
Proof.
  intros NR NZ Hi Zi. destruct (nulls_of i Hi Zi) as (k & K1 & K2). set (g := guessR X t zeroX muIn).
  assert (G0 : x g i = 0). { unfold g, guessR. rewrite (aff_of x AF) by (try exact Hi; apply full_one; exact NZ). unfold guessFull. rewrite Zi. reflexivity. }
  assert (NEp : (0 < ne)%nat) by lia. assert (E0 := eps_pos).
  destruct (maps X h0 t zeroX muIn NR NZ) as (K & Ki & O & Dn & Up & Lw).
  set (r := liftE X t h0 zeroX muIn b). replace (x r i) with (x r i - x g i) by (rewrite G0; ring). rewrite (aff_dx x AF g r i Hi).
  assert (E : r = snap (fromFreeE X t h0 zeroX muIn (fun i => if (i <? ne)%nat then yVec X t h0 zeroX muIn i else b (i - ne)%nat))).
  { unfold r, liftE. rewrite (proj2 (Nat.eqb_neq ne 0)) by lia. reflexivity. }
  set (v := fun i => if (i <? ne)%nat then yVec X t h0 zeroX muIn i else b (i - ne)%nat) in E.
  (* split: snap, then the map *)
  set (d := fun q => v q + -1 * Ki g q). set (d' := fun q => if (q <? ne)%nat then d q else 0).
  assert (Lin : forall q, (q < nr)%nat -> K d q = K v q - g q).
  { intros q Hq. destruct O as (X1 & X2 & L & _ & F). unfold d. rewrite L by exact Hq. rewrite F by exact Hq. ring. }
  assert (DD : dot nr (rowsE X t zeroX muIn k) (K d) = dot nr (rowsE X t zeroX muIn k) (K d')).
  { rewrite !Lw by exact K1. unfold dot. apply LaBase.sum_ext. intros q Hq. unfold d'. destruct (Nat.ltb_spec q ne) as [Q|Q]; [ring|]. unfold lower. rewrite (proj2 (Nat.ltb_lt k ne) K1), (proj2 (Nat.ltb_lt k q)) by lia. cbn [andb]. ring. }
  assert (Sm : forall q, (q < nr)%nat -> Rabs (d' q) <= 10 * dblEps).
  { intros q Hq. unfold d'. destruct (Nat.ltb_spec q ne) as [Q|Q]; [|rewrite Rabs_R0; lra]. unfold d, v. rewrite (proj2 (Nat.ltb_lt q ne) Q). unfold yVec.
    fold g. rewrite <- (Up NEp g q Hq). replace (_ + _) with (snap (toFreeE X t h0 zeroX muIn g) q - toFreeE X t h0 zeroX muIn g q) by ring. apply snap_close. }
  assert (RowE : forall j, rowsE X t zeroX muIn k j = sDx X g i j) by (intro j; unfold rowsE; rewrite K2; reflexivity).
  replace (LaSpec.sum nr (fun j => sDx X g i j * (r j - g j))) with
    (LaSpec.sum nr (fun j => sDx X g i j * (r j - K v j)) + LaSpec.sum nr (fun j => sDx X g i j * K d' j)).
  - assert (C0 : 0 <= 10 * dblEps) by lra. assert (C1 : 0 <= INR nr * (10 * dblEps)) by (apply Rmult_le_pos; [apply pos_INR|lra]).
    eapply Rle_trans; [apply Rabs_triang|].
    pose proof (sum_abs nr (fun j => sDx X g i j) (fun j => r j - K v j) (10 * dblEps) C0) as A1.
    pose proof (sum_abs nr (fun j => sDx X g i j) (K d') (INR nr * (10 * dblEps)) C1) as A2.
    assert (B1 : forall j, (j < nr)%nat -> Rabs (r j - K v j) <= 10 * dblEps).
    { intros j Hj. rewrite E. rewrite <- (Dn v j). apply snap_close. }
    assert (B2 : forall j, (j < nr)%nat -> Rabs (K d' j) <= INR nr * (10 * dblEps)).
    { intros j Hj. exact (orth_entry X zeroX NR NZ K Ki d' (10 * dblEps) j O C0 Sm Hj). }
    specialize (A1 B1). specialize (A2 B2).
    replace (LaSpec.sum nr (fun j => Rabs (sDx X g i j)) * ((INR nr + 1) * (10 * dblEps))) with
      (LaSpec.sum nr (fun j => Rabs (sDx X g i j)) * (10 * dblEps) + LaSpec.sum nr (fun j => Rabs (sDx X g i j)) * (INR nr * (10 * dblEps))) by ring.
    apply Rplus_le_compat; [exact A1|exact A2].
  - assert (DD' : LaSpec.sum nr (fun j => sDx X g i j * K d' j) = LaSpec.sum nr (fun j => sDx X g i j * (K v j - g j))).
    { transitivity (dot nr (rowsE X t zeroX muIn k) (K d')). { unfold dot. apply LaBase.sum_ext. intros. rewrite RowE. reflexivity. }
      rewrite <- DD. unfold dot. apply LaBase.sum_ext. intros q Hq. rewrite RowE, Lin by exact Hq. reflexivity. }
    rewrite DD', <- LaBase.sum_plus. apply LaBase.sum_ext. intros. ring.
Qed.
Notation get := (getAffinity X act dact hess rq t p h0 F0 zeroX muIn).
(** C163: the excluded end-members are absent from the answer *)
Theorem C163_excluded_absent : forall r a, get (Success r a) -> forall i, (i < na)%nat -> zeroX i = true ->
  Rabs (x r i) <= LaSpec.sum nr (fun j => Rabs (sDx X (guessR X t zeroX muIn) i j)) * ((INR nr + 1) * (10 * dblEps)).
Proof.
  intros r a G i Hi Zi. destruct (answered X act dact hess rq t p F0 zeroX muIn h0 r a G) as (NR & NZ & tol & r0 & a0 & o & _ & _ & _ & _ & Er & _). subst r.
  apply lift_null; assumption.
Qed.
End Null.
