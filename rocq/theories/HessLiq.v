(** The liquid of the MELTS and pMELTS modes is a consistent solution in the sense of HessSpec.v. *)
From Coq Require Import Reals List Lia Lra Bool Arith FunctionalExtensionality.
From Coquelicot Require Import Coquelicot.
From Verif Require Import MassModel MassProofs RealTac LiqModel LiqProofs LiqProps HessModel HessSpec HessPhase.
Import List ListNotations.
Open Scope R_scope.

Ltac rr := match goal with |- ?a = ?b => change (@eq R a b) end; ring.
Section L.
Variable n : nat.
Variables WH WS WV : nat -> nat -> R.
Notation NA := (S n).
Hypotheses (SH : symmetric n WH) (SS : symmetric n WS) (SV : symmetric n WV).
Hypothesis N1 : (1 <= n)%nat.
Notation xr := (xr n).
Notation W := (W WH WS WV).

(** conLiq, gmixLiq, smixLiq, cpmixLiq, vmixLiq of liquid_v34.c as the callers of gradient_hessian.c see them *)
Definition liqMixing : Mixing :=
  mkMixing n (rOf n) (drOf n) (d2rOf n)
    (gmix n WH WS WV) (dgmix n WH WS WV) (d2gmix n WH WS WV)
    (fun _ _ => smix n WS) (fun _ _ => dsmix n WS) (fun _ _ => d2smix n WS)
    (fun _ _ _ => cpmix) (fun _ _ _ => dcpmixdt) (fun _ _ _ => dcpmix)
    (fun _ _ => vmix n WV) (fun _ _ => dvmix n WV) (fun _ _ _ => d2vmix WV)
    (fun _ _ _ => dvmixdp) (fun _ _ _ => 0) (fun _ _ _ _ => 0).
(** no negative amount, silica present *)
Definition liqDomain (m : nat -> R) : Prop := (forall i, (i < NA)%nat -> 0 <= m i) /\ 0 < m O.

(** ** Along a curve of compositions *)
Section Path.
Variable c : R -> nat -> R.
Variable y0 : R.
Variable v : nat -> R.
Hypothesis Dv : forall i, (i < n)%nat -> is_derive (fun y => c y i) y0 (v i).
Hypothesis Pos : forall i, (i < n)%nat -> 0 < c y0 i \/ locally y0 (fun y => c y i = 0).
Hypothesis X0 : 0 < xr (c y0) 0.
Notation r := (c y0).
Definition vx (i : nat) : R := match i with O => - sum n v | S k => v k end.
Lemma zero_v i : (i < n)%nat -> locally y0 (fun y => c y i = 0) -> v i = 0.
Proof.
  intros Hi L. pose proof (is_derive_unique _ _ _ (Dv i Hi)) as U. rewrite <- U. rewrite (Derive_ext_loc _ (fun _ => 0)); [apply Derive_const|exact L].
Qed.
Lemma xr_path i : (i < NA)%nat -> is_derive (fun y => xr (c y) i) y0 (vx i).
Proof.
  intros Hi. destruct i as [|i]; cbn [LiqModel.xr vx].
  - replace (- sum n v) with (0 - sum n v) by ring. apply (is_derive_minus (fun _ => 1) (fun y => sum n (c y))); [apply (is_derive_const (V := R_NormedModule))|].
    apply (is_derive_sum n (fun i y => c y i)). exact Dv.
  - apply Dv. lia.
Qed.
Lemma vx_sum f : sum NA (fun i => vx i * f i) = sum n (fun i => (f (S i) - f 0%nat) * v i).
Proof.
  rewrite sum_first. cbn [vx]. rewrite (sum_ext n (fun i => (f (S i) - f 0%nat) * v i) (fun i => v i * f (S i) + (- f 0%nat) * v i)) by (intros; ring). rewrite sum_plus, sum_scal. ring.
Qed.
Lemma pairs_path w : symmetric n w -> is_derive (fun y => pairs n w (xr (c y))) y0 (sum n (fun i => slope n w r i * v i)).
Proof.
  intros Sy. eapply is_derive_eq; [unfold pairs; apply (is_derive_sum NA _ y0 (fun i => sum NA (fun j => if Nat.ltb i j then vx i * xr r j * w i j + xr r i * vx j * w i j else 0))); intros i Hi;
    apply (is_derive_sum NA (fun j y => if Nat.ltb i j then xr (c y) i * xr (c y) j * w i j else 0)); intros j Hj|].
  - destruct (Nat.ltb i j); [|apply (is_derive_const (V := R_NormedModule))].
    pose proof (is_derive_mult _ _ y0 _ _ (xr_path i Hi) (xr_path j Hj) Rmult_comm) as K.
    apply (is_derive_ext (fun y => w i j * (xr (c y) i * xr (c y) j))); [intros; match goal with |- ?a = ?b => change (@eq R a b) end; ring|].
    eapply is_derive_eq; [apply is_derive_scal; exact K|]. unfold plus, mult. cbn. ring.
  - transitivity (LiqProofs.T n w vx (xr r) + LiqProofs.T n w (xr r) vx).
    + unfold LiqProofs.T. rewrite <- sum_plus. apply sum_ext. intros i Hi. rewrite <- sum_plus. apply sum_ext. intros j Hj. destruct (i <? j)%nat; ring.
    + rewrite (T_both n w Sy), vx_sum. apply sum_ext. intros i Hi. now rewrite (slope_row n w Sy).
Qed.
Lemma row_path w i : is_derive (fun y => row n w (xr (c y)) i) y0 (row n w vx i).
Proof.
  unfold row. apply (is_derive_sum NA (fun j y => if Nat.eqb j i then 0 else w i j * xr (c y) j)). intros j Hj. destruct (Nat.eqb j i); [apply (is_derive_const (V := R_NormedModule))|].
  apply is_derive_scal. now apply xr_path.
Qed.
Lemma slope_path w i : symmetric n w -> (i < n)%nat -> is_derive (fun y => slope n w (c y) i) y0 (sum n (fun l => curve w i l * v l)).
Proof.
  intros Sy Hi. apply (is_derive_ext (fun y => row n w (xr (c y)) (S i) - row n w (xr (c y)) 0%nat)); [intros y; now rewrite (slope_row n w Sy)|].
  eapply is_derive_eq; [apply (is_derive_minus (fun y => row n w (xr (c y)) (S i)) (fun y => row n w (xr (c y)) 0%nat)); apply row_path|].
  unfold minus, plus, opp. cbn -[sum row vx]. unfold row. rewrite !sum_first. cbn [vx Nat.eqb]. rewrite (Sy (S i) 0%nat) by lia.
  rewrite (sum_ext n (fun l => curve w i l * v l) (fun l => ((if Nat.eqb l i then 0 else w (S i) (S l) * v l) + (- w 0%nat (S l) * v l)) + (- w 0%nat (S i)) * v l)).
  - rewrite sum_plus, sum_scal, sum_plus. rewrite (sum_ext n (fun l => - w 0%nat (S l) * v l) (fun l => (- 1) * (w 0%nat (S l) * v l))) by (intros; ring). rewrite sum_scal. ring.
  - intros l Hl. unfold curve. rewrite (Nat.eqb_sym i l). destruct (l =? i); ring.
Qed.
Lemma sum_r_lt : sum n r < 1.
Proof. cbn [LiqModel.xr] in X0. lra. Qed.
Lemma r_ge i : (i < n)%nat -> 0 <= r i.
Proof. intros Hi. destruct (Pos i Hi) as [|L]; [lra|]. rewrite (locally_singleton _ _ L). lra. Qed.
Lemma path_proper : proper n r.
Proof. split; [exact r_ge|exact sum_r_lt]. Qed.
Lemma xlnx_path f (d : R) : is_derive f y0 d -> (0 < f y0 \/ (locally y0 (fun y => f y = 0) /\ d = 0)) -> is_derive (fun y => f y * ln (f y)) y0 (d * (ln (f y0) + 1)).
Proof.
  intros Df [P|[L ->]].
  - pose proof (is_derive_mult f (fun y => ln (f y)) y0 d (d * / f y0) Df (is_derive_comp ln f y0 (/ f y0) d (is_derive_ln _ P) Df) Rmult_comm) as K.
    eapply is_derive_eq; [exact K|]. unfold plus, mult. cbn. field. lra.
  - rewrite Rmult_0_l. apply (is_derive_ext_loc (fun _ => 0)); [|apply (is_derive_const (V := R_NormedModule))].
    revert L. apply filter_imp. intros y ->. match goal with |- ?a = ?b => change (@eq R a b) end. ring.
Qed.
Lemma pos_xr i : (i < NA)%nat -> 0 < xr r i \/ (locally y0 (fun y => xr (c y) i = 0) /\ vx i = 0).
Proof.
  intros Hi. destruct i as [|i]; [now left|]. cbn [LiqModel.xr vx]. destruct (Pos i ltac:(lia)) as [|L]; [now left|right; split; auto]. apply zero_v; auto. lia.
Qed.
Lemma ent_path : is_derive (fun y => ent n (c y)) y0 (sum n (fun i => dent n r i * v i)).
Proof.
  unfold ent. pose proof (proper_last n WH WS WV SH SS SV N1 r path_proper) as XL.
  assert (A : is_derive (fun y => sum NA (fun i => xr (c y) i * ln (xr (c y) i))) y0 (sum NA (fun i => vx i * (ln (xr r i) + 1)))).
  { apply (is_derive_sum NA (fun i y => xr (c y) i * ln (xr (c y) i))). intros i Hi. apply (xlnx_path (fun y => xr (c y) i)); [now apply xr_path|now apply pos_xr]. }
  assert (B : is_derive (fun y => xr (c y) n * ln (xr (c y) n)) y0 (vx n * (ln (xr r n) + 1))) by (apply (xlnx_path (fun y => xr (c y) n)); [apply xr_path; lia|apply pos_xr; lia]).
  assert (C : is_derive (fun y => (1 - xr (c y) n) * ln (1 - xr (c y) n)) y0 ((0 - vx n) * (ln (1 - xr r n) + 1))).
  { apply (xlnx_path (fun y => 1 - xr (c y) n)); [|now left]. apply (is_derive_minus (fun _ => 1) (fun y => xr (c y) n)); [apply (is_derive_const (V := R_NormedModule))|apply xr_path; lia]. }
  eapply is_derive_eq; [exact (is_derive_plus _ _ _ _ _ A (is_derive_plus _ _ _ _ _ B C))|]. unfold plus. cbn [AbelianGroup.plus]. cbn -[sum vx dent].
  rewrite (vx_sum (fun i => ln (xr r i) + 1)). cbn [LiqModel.xr]. unfold dent.
  rewrite (sum_ext n (fun i => (ln (r i) - ln (xr r 0) + (if S i =? n then ln (xr r n) - ln (1 - xr r n) else 0)) * v i)
    (fun i => (ln (r i) + 1 - (ln (xr r 0) + 1)) * v i + (if Nat.eqb i (n - 1) then (ln (xr r n) - ln (1 - xr r n)) * v i else 0))).
  - rewrite sum_plus, (sum_one_f n (n - 1) (fun i => (ln (xr r n) - ln (1 - xr r n)) * v i)). replace (Nat.ltb (n - 1) n) with true by (symmetry; apply Nat.ltb_lt; lia).
    replace (vx n) with (v (n - 1)%nat) by (unfold vx; destruct n as [|k]; [lia|]; f_equal; lia). cbn [LiqModel.xr]. ring.
  - intros i Hi. replace (S i =? n) with (i =? n - 1) by (destruct (Nat.eqb_spec i (n - 1)), (Nat.eqb_spec (S i) n); auto; lia). destruct (i =? n - 1); ring.
Qed.
Lemma dent_path i : (i < n)%nat -> 0 < r i -> is_derive (fun y => dent n (c y) i) y0 (sum n (fun l => d2ent n r i l * v l)).
Proof.
  intros Hi Hr. unfold dent, d2ent. pose proof (proper_last n WH WS WV SH SS SV N1 r path_proper) as XL.
  assert (L : forall f d, is_derive f y0 d -> 0 < f y0 -> is_derive (fun y => ln (f y)) y0 (d / f y0)).
  { intros f d Df P. eapply is_derive_eq; [apply (is_derive_comp ln f y0 (/ f y0) d (is_derive_ln _ P) Df)|]. unfold scal. cbn. unfold mult. cbn. field. lra. }
  pose proof (is_derive_minus _ _ _ _ _ (L (fun y => c y i) (v i) (Dv i Hi) Hr) (L (fun y => xr (c y) 0) (vx 0) (xr_path 0 ltac:(lia)) X0)) as A.
  assert (B : is_derive (fun y => if Nat.eqb (S i) n then ln (xr (c y) n) - ln (1 - xr (c y) n) else 0) y0 (if Nat.eqb (S i) n then v i / xr r n + v i / (1 - xr r n) else 0)).
  { destruct (Nat.eqb_spec (S i) n) as [E|]; [|apply (is_derive_const (V := R_NormedModule))].
    assert (XN : forall y, xr (c y) n = c y i) by (intros y; rewrite <- E at 2; reflexivity).
    assert (D1 : is_derive (fun y => xr (c y) n) y0 (v i)) by (apply (is_derive_ext (fun y => c y i)); [intros; now rewrite XN|auto]).
    assert (D2 : is_derive (fun y => 1 - xr (c y) n) y0 (0 - v i)) by (apply (is_derive_minus (fun _ => 1) (fun y => xr (c y) n)); [apply (is_derive_const (V := R_NormedModule))|exact D1]).
    eapply is_derive_eq; [apply (is_derive_minus (fun y => ln (xr (c y) n)) (fun y => ln (1 - xr (c y) n))); [apply L; [exact D1|rewrite XN; auto]|apply (L (fun y => 1 - xr (c y) n)); [exact D2|auto]]|].
    unfold minus, plus, opp. cbn -[LiqModel.xr]. rewrite XN in *. field. split; lra. }
  eapply is_derive_eq; [exact (is_derive_plus _ _ _ _ _ A B)|]. unfold minus, plus, opp. cbn -[sum LiqModel.xr vx Nat.eqb].
  rewrite (sum_ext n (fun l => (1 / xr r 0 + (if i =? l then 1 / r i else 0) + (if (S i =? n) && (S l =? n) then 1 / xr r n + 1 / (1 - xr r n) else 0)) * v l)
    (fun l => (1 / xr r 0) * v l + ((if l =? i then (1 / r i) * v l else 0) + (if l =? i then (if S i =? n then (1 / xr r n + 1 / (1 - xr r n)) * v l else 0) else 0)))).
  - rewrite !sum_plus, sum_scal, (sum_one_f n i (fun l => (1 / r i) * v l)), (sum_one_f n i (fun l => if S i =? n then (1 / xr r n + 1 / (1 - xr r n)) * v l else 0)).
    replace (Nat.ltb i n) with true by (symmetry; now apply Nat.ltb_lt). cbn [vx]. destruct (S i =? n); unfold Rdiv; ring.
  - intros l Hl. rewrite (Nat.eqb_sym i l). destruct (Nat.eqb_spec l i) as [->|Nl].
    + rewrite andb_diag. destruct (S i =? n); ring.
    + replace ((S i =? n) && (S l =? n))%bool with false; [ring|]. destruct (Nat.eqb_spec (S i) n), (Nat.eqb_spec (S l) n); auto; lia.
Qed.
(** the functions themselves *)
Lemma gmix_path t p : is_derive (fun y => gmix n WH WS WV t p (c y)) y0 (sum n (fun i => dgmix n WH WS WV t p r i * v i)).
Proof.
  apply (is_derive_ext (fun y => pairs n (W t p) (xr (c y)) + Rg * t * ent n (c y))); [intros; now rewrite gmix_eq|].
  eapply is_derive_eq; [apply (is_derive_plus (fun y => pairs n (W t p) (xr (c y))) (fun y => Rg * t * ent n (c y))); [apply pairs_path; apply SW; auto|apply is_derive_scal; apply ent_path]|].
  unfold plus. cbn -[sum dent slope]. rewrite <- sum_scal, <- sum_plus. apply sum_ext. intros i Hi. destruct (Pos i Hi) as [P|L].
  - rewrite dgmix_eq by auto. ring.
  - rewrite (zero_v i Hi L). ring.
Qed.
Lemma smix_path : is_derive (fun y => smix n WS (c y)) y0 (sum n (fun i => dsmix n WS r i * v i)).
Proof.
  apply (is_derive_ext (fun y => pairs n WS (xr (c y)) + (- Rg) * ent n (c y))); [intros; rewrite smix_eq; match goal with |- ?a = ?b => change (@eq R a b) end; ring|].
  eapply is_derive_eq; [apply (is_derive_plus (fun y => pairs n WS (xr (c y))) (fun y => (- Rg) * ent n (c y))); [apply pairs_path; auto|apply is_derive_scal; apply ent_path]|].
  unfold plus. cbn -[sum dent slope]. rewrite <- sum_scal, <- sum_plus. apply sum_ext. intros i Hi. destruct (Pos i Hi) as [P|L].
  - rewrite dsmix_eq by auto. ring.
  - rewrite (zero_v i Hi L). ring.
Qed.
Lemma near_c i : (i < n)%nat -> 0 < r i -> locally y0 (fun y => 0 < c y i).
Proof.
  intros Hi P. assert (C : continuous (fun y => c y i) y0) by (apply (ex_derive_continuous (fun y => c y i)); eexists; apply (Dv i Hi)).
  apply (C (fun z => 0 < z)). exists (mkposreal _ P). intros z Hz. cbn in Hz. unfold AbsRing_ball, abs, minus, plus, opp in Hz. cbn in Hz. apply Rabs_def2 in Hz. lra.
Qed.
Lemma dgmix_path t p i : (i < n)%nat -> 0 < r i -> is_derive (fun y => dgmix n WH WS WV t p (c y) i) y0 (sum n (fun l => d2gmix n WH WS WV t p r i l * v l)).
Proof.
  intros Hi P. apply (is_derive_ext_loc (fun y => slope n (W t p) (c y) i + Rg * t * dent n (c y) i)).
  - generalize (near_c i Hi P). apply filter_imp. intros y Py. symmetry. now apply dgmix_eq.
  - eapply is_derive_eq; [apply (is_derive_plus (fun y => slope n (W t p) (c y) i) (fun y => Rg * t * dent n (c y) i)); [apply slope_path; [apply SW; auto|auto]|apply is_derive_scal; now apply dent_path]|].
    unfold plus. cbn -[sum d2ent curve]. rewrite <- sum_scal, <- sum_plus. apply sum_ext. intros l Hl. rewrite d2gmix_eq by auto. ring.
Qed.
Lemma dsmix_path i : (i < n)%nat -> 0 < r i -> is_derive (fun y => dsmix n WS (c y) i) y0 (sum n (fun l => d2smix n WS r i l * v l)).
Proof.
  intros Hi P. apply (is_derive_ext_loc (fun y => slope n WS (c y) i + (- Rg) * dent n (c y) i)).
  - generalize (near_c i Hi P). apply filter_imp. intros y Py. symmetry. rewrite dsmix_eq by auto. rr.
  - eapply is_derive_eq; [apply (is_derive_plus (fun y => slope n WS (c y) i) (fun y => (- Rg) * dent n (c y) i)); [apply slope_path; auto|apply is_derive_scal; now apply dent_path]|].
    unfold plus. cbn -[sum d2ent curve]. rewrite <- sum_scal, <- sum_plus. apply sum_ext. intros l Hl. rewrite d2smix_eq by auto. ring.
Qed.
End Path.

(** ** In terms of moles *)
Section Moles.
Variable m : nat -> R.
Hypothesis Dm : liqDomain m.
Lemma tot_pos : 0 < total n m.
Proof. destruct Dm as [P M0]. eapply Rlt_le_trans; [exact M0|]. apply (sum_ge NA m 0); [auto|lia]. Qed.
Lemma r_pos i : (i < n)%nat -> m (S i) <> 0 -> 0 < rOf n m i.
Proof.
  intros Hi N. pose proof tot_pos. unfold rOf. rewrite isZ_ne by lra. apply Rmult_lt_0_compat; [|now apply Rinv_0_lt_compat]. destruct Dm as [P _]. specialize (P (S i) ltac:(lia)). lra.
Qed.
Variable k : nat.
Hypothesis Hk : there NA m k.
Lemma k_pos : 0 < m k.
Proof. destruct Hk as [H1 H2]. destruct Dm as [P _]. specialize (P k H1). lra. Qed.
Lemma liq_open : locally (m k) (fun x => liqDomain (upd m k x)).
Proof.
  pose proof k_pos as KP. exists (mkposreal _ KP). intros x Hx. cbn in Hx. unfold AbsRing_ball, abs, minus, plus, opp in Hx. cbn in Hx. apply Rabs_def2 in Hx. destruct Dm as [P M0]. split.
  - intros i Hi. unfold upd. destruct (i =? k); [lra|auto].
  - unfold upd. destruct (0 =? k); [lra|auto].
Qed.
(** either present, or absent all along *)
Lemma liq_pos i : (i < n)%nat -> 0 < rOf n (upd m k (m k)) i \/ locally (m k) (fun y => rOf n (upd m k y) i = 0).
Proof.
  intros Hi. rewrite upd_id. destruct (Req_EM_T (m (S i)) 0) as [Z|N]; [right|left; now apply r_pos].
  apply filter_forall. intros y. unfold rOf. replace (upd m k y (S i)) with 0; [destruct (isZ _); unfold Rdiv; ring|].
  unfold upd. destruct (Nat.eqb_spec (S i) k) as [E|E]; auto. destruct Hk as [_ H2]. subst k. contradiction.
Qed.
Lemma liq_x0 : 0 < xr (rOf n (upd m k (m k))) 0.
Proof. rewrite upd_id. destruct Dm as [P M0]. destruct (C85_proper n N1 m P M0) as [Q _]. now apply proper_x0. Qed.
Lemma liq_dr i : (i < n)%nat -> is_derive (fun y => rOf n (upd m k y) i) (m k) (drOf n m i k).
Proof. intros Hi. pose proof tot_pos. apply C85_dr; auto; [lra|]. apply Hk. Qed.
Lemma liq_fixed i : (i < n)%nat -> m (S i) = 0 -> fixed liqMixing NA m i.
Proof.
  intros Hi Z j k' [J1 J2] [K1 K2]. cbn [xDr liqMixing]. unfold drOf.
  assert (A : forall m', m' (S i) = 0 -> S i <> j -> (if isZ (total n m') then 0 else if S i =? j then (1 - m' (S i) / total n m') / total n m' else - m' (S i) / (total n m' * total n m')) = 0).
  { intros m' Z' N. replace (S i =? j) with false by (symmetry; now apply Nat.eqb_neq). rewrite Z'. destruct (isZ _); unfold Rdiv; ring. }
  assert (N : S i <> j) by (intros <-; contradiction). split; [now apply A|]. apply filter_forall. intros x. apply A; auto.
  unfold upd. destruct (Nat.eqb_spec (S i) k') as [E|]; auto. subst k'. contradiction.
Qed.
End Moles.
Lemma rOf_ext m m' : (forall i, (i < NA)%nat -> m i = m' i) -> forall i, (i < n)%nat -> rOf n m i = rOf n m' i.
Proof. intros E i Hi. unfold rOf. replace (total n m') with (total n m) by (unfold total; apply sum_ext; auto). now rewrite E by lia. Qed.
Lemma xr_ext r r' : (forall i, (i < n)%nat -> r i = r' i) -> forall i, (i < NA)%nat -> xr r i = xr r' i.
Proof. intros E i Hi. destruct i as [|i]; cbn [LiqModel.xr]; [now rewrite (sum_ext n r r')|]. apply E. lia. Qed.
Lemma ent_ext r r' : (forall i, (i < n)%nat -> r i = r' i) -> ent n r = ent n r'.
Proof. intros E. pose proof (xr_ext r r' E) as X. unfold ent. rewrite (X n) by lia. f_equal. apply sum_ext. intros i Hi. now rewrite X. Qed.

Theorem liq_solution : solutionOK liqMixing NA liqDomain.
Proof.
  assert (P : forall m k, liqDomain m -> there NA m k -> forall (F : (nat -> R) -> R) (Fx : (nat -> R) -> nat -> R),
     (forall c y0 v, (forall i, (i < n)%nat -> is_derive (fun y => c y i) y0 (v i)) -> (forall i, (i < n)%nat -> 0 < c y0 i \/ locally y0 (fun y => c y i = 0)) -> 0 < xr (c y0) 0 ->
        is_derive (fun y => F (c y)) y0 (sum n (fun i => Fx (c y0) i * v i))) ->
     is_derive (fun x => F (rOf n (upd m k x))) (m k) (sum n (fun i => Fx (rOf n m) i * drOf n m i k))).
  { intros m k Dm Hk F Fx H. pose proof (H (fun x => rOf n (upd m k x)) (m k) (fun i => drOf n m i k) (fun i Hi => liq_dr m Dm k Hk i Hi) (liq_pos m Dm k Hk) (liq_x0 m Dm k)) as K.
    cbv beta in K. rewrite upd_id in K. exact K. }
  assert (P2 : forall m k i, liqDomain m -> there NA m k -> (i < n)%nat -> forall (G : (nat -> R) -> R) (Gx : (nat -> R) -> nat -> R),
     (forall c y0 v, (forall i, (i < n)%nat -> is_derive (fun y => c y i) y0 (v i)) -> (forall i, (i < n)%nat -> 0 < c y0 i \/ locally y0 (fun y => c y i = 0)) -> 0 < xr (c y0) 0 -> 0 < c y0 i ->
        is_derive (fun y => G (c y)) y0 (sum n (fun l => Gx (c y0) l * v l))) ->
     fixed liqMixing NA m i \/ is_derive (fun x => G (rOf n (upd m k x))) (m k) (sum n (fun l => Gx (rOf n m) l * drOf n m l k))).
  { intros m k i Dm Hk Hi G Gx H. destruct (Req_EM_T (m (S i)) 0) as [Z|N]; [left; now apply liq_fixed|right].
    pose proof (H (fun x => rOf n (upd m k x)) (m k) (fun i => drOf n m i k) (fun i Hi => liq_dr m Dm k Hk i Hi) (liq_pos m Dm k Hk) (liq_x0 m Dm k)) as K.
    cbv beta in K. rewrite upd_id in K. apply K. now apply r_pos. }
  assert (Z : forall m k f, (forall x, f x = 0) -> is_derive (fun x => f (rOf n (upd m k x))) (m k) (sum n (fun i => 0 * drOf n m i k))).
  { intros m k f H. rewrite (sum_0 n) by (intros; ring). apply (is_derive_ext (fun _ => 0)); [intros; now rewrite H|]. apply (is_derive_const (V := R_NormedModule)). }
  constructor; cbn [xNr xR xDr xD2r xG xGx xGxx xS xSx xSxx xC xCt xCx xV xVx xVxx xVp xVpp xVxp liqMixing].
  - intros m k Dm Hk. now apply liq_open.
  - intros t p. split; [|split]; intros m m' E; cbn [xR liqMixing]; pose proof (rOf_ext m m' E) as RE; pose proof (xr_ext _ _ RE) as XE.
    + rewrite !gmix_eq, (pairs_ext n _ _ _ XE), (ent_ext _ _ RE). reflexivity.
    + rewrite !smix_eq, (pairs_ext n _ _ _ XE), (ent_ext _ _ RE). reflexivity.
    + unfold vmix. apply (pairs_ext n _ _ _ XE).
  - intros m i k Dm Hi Hk. now apply liq_dr.
  - intros m i j k Dm Hi Hj Hk. pose proof (tot_pos m Dm). apply C85_d2r; auto; [lra|apply Hj|apply Hk].
  - intros t p Ht. split.
    + intros m k Dm Hk. apply P; auto. intros c y0 v A B C. now apply gmix_path.
    + intros m k i Dm Hk Hi. apply (P2 m k i Dm Hk Hi (fun r => dgmix n WH WS WV t p r i) (fun r l => d2gmix n WH WS WV t p r i l)). intros c y0 v A B C D. now apply dgmix_path.
  - intros t p Ht. split.
    + intros m k Dm Hk. apply (P m k Dm Hk (smix n WS) (dsmix n WS)). intros c y0 v A B C. now apply smix_path.
    + intros m k i Dm Hk Hi. apply (P2 m k i Dm Hk Hi (fun r => dsmix n WS r i) (fun r l => d2smix n WS r i l)). intros c y0 v A B C D. now apply dsmix_path.
  - intros t p Ht. split.
    + intros m k Dm Hk. apply (P m k Dm Hk (vmix n WV) (dvmix n WV)). intros c y0 v A B C. unfold vmix, dvmix. now apply pairs_path.
    + intros m k i Dm Hk Hi. apply (P2 m k i Dm Hk Hi (fun r => dvmix n WV r i) (fun r l => d2vmix WV i l)). intros c y0 v A B C D. unfold dvmix, d2vmix. now apply slope_path.
  - intros t p Ht m k Dm Hk. apply (Z m k (fun _ => cpmix)). reflexivity.
  - intros t p Ht m k Dm Hk. apply (Z m k (fun _ => dvmixdp)). reflexivity.
  - intros t p m Ht Dm. apply C83_entropy.
  - intros t p m Ht Dm. unfold cpmix. replace (0 / t) with 0 by (unfold Rdiv; ring). apply (is_derive_const (V := R_NormedModule)).
  - intros t p m Ht Dm. apply (is_derive_const (V := R_NormedModule)).
  - intros t p m Ht Dm. apply C83_volume.
  - intros t p m Ht Dm. apply (is_derive_const (V := R_NormedModule)).
  - intros t p m Ht Dm. apply (is_derive_const (V := R_NormedModule)).
Qed.
End L.
