(** Theorems about the test for a second liquid: C145-C149. *)
From Coq Require Import Reals List Bool Arith Lia Lra FunctionalExtensionality.
From Coquelicot Require Import Coquelicot.
From Verif Require Import MassModel MassProofs RealTac LiqModel LiqProofs LiqProps HessLiq LaSpec LaBase HftiProofs QuadModel FullRank NashModel NashSpec NashProofs NashProps CoexModel CoexSpec CoexFrame CoexProofs.
Import List ListNotations.
Open Scope R_scope.
Notation sum := MassModel.sum.
Notation apply_ := LaSpec.apply.

Lemma reltest_pos : 0 < reltest.
Proof. apply sqrt_lt_R0, dblEps_pos. Qed.
Lemma leb_true x y : leb x y = true <-> x <= y.
Proof. unfold leb. destruct (Rle_dec x y); split; auto; try discriminate; contradiction. Qed.
Lemma feasibleR_spec n r : feasibleR n r = true <-> testR n r.
Proof.
  unfold feasibleR, testR. rewrite andb_true_iff, forallb_forall, leb_true. split; intros (A & B); split; auto.
  - intros i Hi. specialize (A i ltac:(apply in_seq; lia)). apply andb_true_iff in A. now rewrite !leb_true in A.
  - intros i Hi. apply in_seq in Hi. specialize (A i ltac:(lia)). apply andb_true_iff. now rewrite !leb_true.
Qed.
Lemma testR_xr n r : testR n r -> forall i, (i < S n)%nat -> 0 <= xr n r i.
Proof. intros (A & B) i Hi. destruct i as [|i]; cbn [xr]; [lra|]. apply A. lia. Qed.

Section P.
Variable n : nat.
Variables WH WS WV : nat -> nat -> R.
Variables t p : R.
Variable h0 : nat -> R.
Notation NA := (S n).
Notation check := (check n WH WS WV t p).
Notation gap := (gap n WH WS WV t p).

Lemma accepted_point redox m i x : trial n WH WS WV t p redox h0 m i (Some x) ->
  exists F0 r y X, vmmin (nz n m) (fminfn n WH WS WV t p redox h0 m (fixed n h0 m i)) (fmingr n WH WS WV t p redox h0 m (fixed n h0 m i)) reltest
      (fun k => startFree n h0 m i (k + ne n m)%nat) F0 r /\
    fminfn n WH WS WV t p redox h0 m (fixed n h0 m i) (fun k => startFree n h0 m i (k + ne n m)%nat) = Some y /\
    x = lift n h0 m (fixed n h0 m i) (oB r) /\ fminfn n WH WS WV t p redox h0 m (fixed n h0 m i) X = Some (oF r) /\
    (X = oB r \/ within (nz n m) (2 * reltest) X (oB r)) /\ oF r < 0.
Proof.
  intros (F0 & r & V & E). destruct (codev r) eqn:Cd; try discriminate E. destruct (Rlt_dec (oF r) _) as [L|]; [|discriminate E]. injection E as ->.
  destruct (fminfn n WH WS WV t p redox h0 m (fixed n h0 m i) (fun k => startFree n h0 m i (k + ne n m)%nat)) as [y|] eqn:Ey.
  - destruct (C31_vmmin_reported_minimum _ _ _ _ _ _ _ _ Ey V) as (X & X1 & X2 & X3). exists F0, r, y, X. split; [exact V|]. split; [reflexivity|]. split; [reflexivity|]. split; [exact X1|]. split; [exact X3|].
    pose proof (Rabs_pos (gmix n WH WS WV t p (rOf n m))). pose proof reltest_pos. nra.
  - unfold vmmin in V. rewrite Ey in V. rewrite V in Cd. discriminate Cd.
Qed.
Lemma searches_in redox m cs x : searches n WH WS WV t p redox h0 m cs -> In x cs -> exists i, In i (present n m) /\ trial n WH WS WV t p redox h0 m i (Some x).
Proof.
  intros (l & F & ->). revert F. generalize (present n m). intros is F. induction F as [|i o is l T F IH]; intros I; [destruct I|].
  unfold somes in I. cbn [flat_map] in I. apply in_app_or in I. destruct I as [I|I].
  - destruct o as [z|]; [|destruct I]. destruct I as [->|[]]. exists i. split; [now left|exact T].
  - destruct (IH I) as (j & J1 & J2). exists j. split; [now right|exact J2].
Qed.
Lemma farthest_in ref l x0 : In (farthest n ref x0 l) (x0 :: l).
Proof.
  unfold farthest. revert x0. induction l as [|y l IH]; intros x0; cbn [fold_left]; [now left|].
  destruct (Rlt_dec _ _); destruct (IH y) as [E|I]; destruct (IH x0) as [E'|I']; try (right; left; assumption); try (left; assumption); right; right; assumption.
Qed.
Lemma scan_some redox ms x : scan n WH WS WV t p redox h0 ms (Some x) -> exists m i, In m ms /\ In i (present n m) /\ trial n WH WS WV t p redox h0 m i (Some x).
Proof.
  intros S. remember (Some x) as o eqn:E. revert E. induction S as [|m ms o S1 S2 IH|m ms z cs S1]; intros E; [discriminate E| |].
  - destruct (IH E) as (m' & i & A & B). exists m', i. split; [now right|exact B].
  - injection E as <-. destruct (searches_in redox m _ _ S1 (farthest_in (rOf n m) cs z)) as (i & A & B). exists m, i. split; [now left|]. split; assumption.
Qed.

(** ** C145 *)
Theorem C145_stable_liquids_are_kept : forall mu0 liquidMass liquids liquids' found,
  symmetric n WH -> symmetric n WS -> symmetric n WV -> (1 <= n)%nat ->
  (forall m, In m liquids -> proper_liquid n m /\ stable n WH WS WV mu0 t p m) ->
  check None h0 liquidMass liquids liquids' found -> found = false /\ liquids' = liquids.
Proof.
  intros mu0 lm ls ls' found SH SS SV N1 H C. unfold CoexModel.check in C.
  destruct (Req_EM_T lm 0); [tauto|]. destruct (Rle_dec t 0); [tauto|]. destruct (Rlt_dec p 0); [tauto|]. destruct C as (o & Sc & C).
  destruct o as [x|]; [|tauto]. exfalso. destruct (scan_some _ _ _ Sc) as (m & i & I & _ & T). destruct (H m I) as (Pm & St).
  destruct (accepted_point _ _ _ _ T) as (F0 & r & y & X & _ & _ & _ & FX & _ & Neg). unfold fminfn, evaluated in FX.
  destruct (feasibleR n (lift n h0 m (fixed n h0 m i) X)) eqn:Fe; [|discriminate FX]. injection FX as FX. apply feasibleR_spec in Fe.
  set (z := lift n h0 m (fixed n h0 m i) X) in *.
  assert (M0 : m 0%nat <> 0) by (destruct Pm; lra).
  destruct (gap_unstable n WH WS WV SH SS SV N1 t p m z Pm (testR_xr n z Fe)) with (mu0 := mu0) as (e & E1 & E2 & E3).
  - intros j Hj Z. apply lift_null; auto.
  - rewrite FX. exact Neg.
  - specialize (St (fun k => e * xr n z k)). assert (Q : forall k, (k < NA)%nat -> 0 <= e * xr n z k <= m k).
    { intros k Hk. split; [|now apply E2]. apply Rmult_le_pos; [lra|]. now apply (testR_xr n z Fe). }
    specialize (St Q). unfold rest in E3. lra.
Qed.

(** ** C146 *)
Theorem C146_tangent_plane : forall mu0 m,
  (1 <= n)%nat -> proper_liquid n m ->
  (forall x, testR n x -> 0 <= gap (rOf n m) x) ->
  forall ms : list (nat -> R), (forall q, In q ms -> forall i, (i < NA)%nat -> 0 <= q i) -> (forall i, (i < NA)%nat -> amount ms i = m i) ->
  gibbs n WH WS WV mu0 t p m <= gibbs_all n WH WS WV mu0 t p ms.
Proof.
  intros mu0 m N1 Pm H ms Hms E. pose proof (N_pos n N1 m Pm) as P.
  refine (Rle_trans _ _ _ _ (gibbs_sum n WH WS WV N1 t p mu0 (rOf n m) ms _ Hms)).
  - rewrite (MassProofs.sum_ext NA (amount ms) m) by exact E.
    rewrite (MassProofs.sum_ext NA (fun i => amount ms i * mu0 i) (fun i => m i * mu0 i)) by (intros i Hi; now rewrite E).
    rewrite (MassProofs.sum_ext n (fun i => dgmix n WH WS WV t p (rOf n m) i * amount ms (S i)) (fun i => sum NA m * (dgmix n WH WS WV t p (rOf n m) i * rOf n m i))).
    + rewrite MassProofs.sum_scal. unfold gibbs. right. ring.
    + intros i Hi. rewrite E by lia. unfold rOf, total, isZ. destruct (Req_EM_T (sum NA m) 0); [lra|]. field. lra.
  - intros x Hx. apply H. split.
    + intros i Hi. pose proof (Hx (S i) ltac:(lia)) as A. cbn [xr] in A. split; auto.
      assert (B : x i <= sum n x).
      { change sum with LaSpec.sum. pose proof (LaBase.sum_at n i x (fun j => if Nat.eqb j i then 0 else x j)) as Q.
        rewrite Q; [|intros j Hj Nj; destruct (Nat.eqb_spec j i); [lia|auto]|lia]. rewrite Nat.eqb_refl.
        assert (0 <= LaSpec.sum n (fun j => if Nat.eqb j i then 0 else x j)); [|lra]. apply LaBase.sum_pos. intros j Hj. destruct (Nat.eqb j i); [lra|]. apply (Hx (S j)). lia. }
      pose proof (Hx O ltac:(lia)) as C. cbn [xr] in C. lra.
    + pose proof (Hx O ltac:(lia)) as C. cbn [xr] in C. lra.
Qed.
(** in particular the liquid is stable *)
Theorem C146_stable : forall mu0 m, (1 <= n)%nat -> proper_liquid n m -> (forall x, testR n x -> 0 <= gap (rOf n m) x) -> stable n WH WS WV mu0 t p m.
Proof.
  intros mu0 m N1 Pm H part Hp.
  replace (gibbs n WH WS WV mu0 t p (fun i => m i - part i) + gibbs n WH WS WV mu0 t p part) with (gibbs_all n WH WS WV mu0 t p [fun i => m i - part i; part]) by (cbn [gibbs_all fold_right]; ring).
  apply (C146_tangent_plane mu0 m N1 Pm H).
  - intros q [<-|[<-|[]]] i Hi; specialize (Hp i Hi); lra.
  - intros i Hi. unfold amount. cbn [fold_right]. ring.
Qed.
End P.
