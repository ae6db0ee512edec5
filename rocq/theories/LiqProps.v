(** The mixing model of the liquid: its functions are one thermodynamic potential and its derivatives. *)
From Coq Require Import Reals List Lia Lra Bool Arith.
From Verif Require Import MassModel MassProofs LiqModel LiqProofs RealTac.
Import ListNotations.
Open Scope R_scope.

(** ** Liquids: mole fractions not negative, silica present *)
Definition proper (n : nat) (r : nat -> R) : Prop := (forall i, (i < n)%nat -> 0 <= r i) /\ sum n r < 1.

Lemma sum_ge n f k : (forall i, (i < n)%nat -> 0 <= f i) -> (k < n)%nat -> f k <= sum n f.
Proof.
  induction n; intros H Hk; [lia|]. cbn [sum]. assert (P : 0 <= sum n f).
  { clear -H. induction n; cbn [sum]; [lra|]. assert (0 <= sum n f) by (apply IHn; intros; apply H; lia). specialize (H n ltac:(lia)). lra. }
  destruct (Nat.eq_dec k n) as [->|Ne]; [lra|]. specialize (IHn ltac:(intros; apply H; lia) ltac:(lia)). specialize (H n ltac:(lia)). lra.
Qed.

Section L.
Variable n : nat.
Variables WH WS WV : nat -> nat -> R.
Notation NA := (S n).
Hypotheses (SH : symmetric n WH) (SS : symmetric n WS) (SV : symmetric n WV).
Notation W := (W WH WS WV).
Notation gmix := (gmix n WH WS WV).
Notation dgmix := (dgmix n WH WS WV).
Notation d2gmix := (d2gmix n WH WS WV).
Notation hmix := (hmix n WH WV).
Notation smix := (smix n WS).
Notation dsmix := (dsmix n WS).
Notation d2smix := (d2smix n WS).
Notation vmix := (vmix n WV).
Notation mu := (mu n WH WS WV).
Notation act := (act n WH WS WV).
Notation dact := (dact n WH WS WV).
Notation gex := (gex n WH WS WV).
Notation lnGamma := (lnGamma n WH WS WV).
Notation xr := (xr n).
Lemma SW t p : symmetric n (W t p).
Proof. intros i j Hi Hj. unfold LiqModel.W. now rewrite (SH i j), (SS i j), (SV i j). Qed.

(** the entropy of mixing without the parameters, in units of -R *)
Definition ent (r : nat -> R) : R := sum NA (fun i => xr r i * ln (xr r i)) + (xr r n * ln (xr r n) + (1 - xr r n) * ln (1 - xr r n)).
Definition dent (r : nat -> R) (k : nat) : R := (ln (r k) - ln (xr r 0)) + (if Nat.eqb (S k) n then ln (xr r n) - ln (1 - xr r n) else 0).

Lemma gmix_eq t p r : gmix t p r = pairs n (W t p) (xr r) + Rg * t * ent r.
Proof.
  unfold LiqModel.gmix, ent, pairs. rewrite sum_plus, Rplus_assoc. f_equal.
  rewrite (Rmult_plus_distr_l (Rg * t) (sum NA _)). f_equal.
  - rewrite <- sum_scal. apply sum_ext. intros i Hi. destruct (isZ (xr r i)) eqn:Z; [apply isZ_spec in Z; rewrite Z; ring|ring].
  - destruct (isZ (xr r n)) eqn:Z; [apply isZ_spec in Z; rewrite Z, Rminus_0_r, ln_1; ring|ring].
Qed.
Lemma smix_eq r : smix r = pairs n WS (xr r) - Rg * ent r.
Proof.
  unfold LiqModel.smix, ent, pairs. rewrite sum_plus, Rplus_assoc. unfold Rminus. f_equal.
  rewrite (Rmult_plus_distr_l Rg (sum NA _)), Ropp_plus_distr. f_equal.
  - rewrite Ropp_mult_distr_l, <- sum_scal. apply sum_ext. intros i Hi. destruct (isZ (xr r i)) eqn:Z; [apply isZ_spec in Z; rewrite Z; ring|ring].
  - destruct (isZ (xr r n)) eqn:Z; [apply isZ_spec in Z; rewrite Z, Ropp_0, Rplus_0_r, ln_1; ring|ring].
Qed.

(** ** Thermodynamic identities *)
Theorem C83_gibbs t p r : gmix t p r = hmix p r - t * smix r.
Proof.
  rewrite gmix_eq, smix_eq. unfold LiqModel.hmix.
  assert (E : pairs n (W t p) (xr r) = pairs n (fun i j => WH i j + (p - 1) * WV i j) (xr r) + (- t) * pairs n WS (xr r)).
  { unfold pairs. rewrite <- sum_scal, <- sum_plus. apply sum_ext. intros i Hi. rewrite <- sum_scal, <- sum_plus. apply sum_ext. intros j Hj.
    unfold LiqModel.W. destruct (i <? j)%nat; ring. }
  rewrite E. ring.
Qed.
Lemma gmix_lin t p r : gmix t p r = pairs n WH (xr r) - t * smix r + (p - 1) * vmix r.
Proof.
  rewrite C83_gibbs. unfold LiqModel.hmix, LiqModel.vmix.
  assert (E : pairs n (fun i j => WH i j + (p - 1) * WV i j) (xr r) = pairs n WH (xr r) + (p - 1) * pairs n WV (xr r)).
  { unfold pairs. rewrite <- sum_scal, <- sum_plus. apply sum_ext. intros i Hi. rewrite <- sum_scal, <- sum_plus. apply sum_ext. intros j Hj. destruct (i <? j)%nat; ring. }
  rewrite E. ring.
Qed.
Theorem C83_entropy t p r : is_derive (fun t => gmix t p r) t (- smix r).
Proof.
  apply (is_derive_ext (fun t => pairs n WH (xr r) - t * smix r + (p - 1) * vmix r)); [intros; now rewrite gmix_lin|].
  generalize (pairs n WH (xr r)) (smix r) (vmix r). intros a b c. auto_derive; [auto|]. match goal with |- ?a = ?b => change (@eq R a b) end. ring.
Qed.
Theorem C83_volume t p r : is_derive (fun p => gmix t p r) p (vmix r).
Proof.
  apply (is_derive_ext (fun p => pairs n WH (xr r) - t * smix r + (p - 1) * vmix r)); [intros; now rewrite gmix_lin|].
  generalize (pairs n WH (xr r)) (smix r) (vmix r). intros a b c. auto_derive; [auto|]. match goal with |- ?a = ?b => change (@eq R a b) end. ring.
Qed.

(** ** Derivatives with respect to composition *)
Hypothesis N1 : (1 <= n)%nat.
Lemma last_r r : xr r n = r (n - 1)%nat.
Proof. destruct n as [|m]; [lia|]. cbn [LiqModel.xr]. f_equal. lia. Qed.
Lemma proper_x0 r : proper n r -> 0 < xr r 0.
Proof. intros [_ H]. cbn [LiqModel.xr]. lra. Qed.
Lemma proper_lt r k : proper n r -> (k < n)%nat -> r k < 1.
Proof. intros [A B] Hk. pose proof (sum_ge n r k A Hk). lra. Qed.
Lemma proper_last r : proper n r -> 0 < 1 - xr r n.
Proof. intros P. rewrite last_r. pose proof (proper_lt r (n - 1) P ltac:(lia)). lra. Qed.

Lemma ent_dr r k : proper n r -> (k < n)%nat -> 0 < r k -> is_derive (fun y => ent (upd r k y)) (r k) (dent r k).
Proof.
  intros P Hk Hr. pose proof (proper_x0 r P) as X0. pose proof (proper_last r P) as XL. unfold ent, dent.
  assert (XK : xr r (S k) = r k) by reflexivity.
  assert (D1 : is_derive (fun y => sum NA (fun i => xr (upd r k y) i * ln (xr (upd r k y) i))) (r k) (ln (r k) - ln (xr r 0))).
  { eapply is_derive_eq; [apply (is_derive_sumR _ (fun i => dir k i * (if Nat.eqb i 0 then ln (xr r 0) + 1 else if Nat.eqb i (S k) then ln (r k) + 1 else 0)))|].
    - intros i Hi. apply (is_derive_ext (fun y => (xr r i + (y - r k) * dir k i) * ln (xr r i + (y - r k) * dir k i))); [intros y; now rewrite xr_upd|].
      destruct i as [|i]; cbn [dir Nat.eqb].
      + set (a := xr r 0) in *. auto_derive; [lra|]. match goal with |- ?a = ?b => change (@eq R a b) end. replace (a + (r k - r k) * -1) with a by ring.
        replace (a + (r k + - r k) * -1) with a by ring. field. lra.
      + cbn [LiqModel.xr]. destruct (Nat.eqb_spec i k) as [->|Ne].
        * set (a := r k) in *. auto_derive; [lra|]. match goal with |- ?a = ?b => change (@eq R a b) end. replace (a + (a - a) * 1) with a by ring. replace (a + (a + - a) * 1) with a by ring. field. lra.
        * apply (is_derive_ext (fun _ => r i * ln (r i))); [intros y; match goal with |- ?a = ?b => change (@eq R a b) end; replace (r i + (y - r k) * 0) with (r i) by ring; reflexivity|].
          eapply is_derive_eq; [apply is_derive_const|]. unfold zero; cbn. ring.
    - rewrite (dir_sum n k) by auto. cbn [Nat.eqb]. rewrite Nat.eqb_refl. ring. }
  eapply is_derive_eq.
  - apply (is_derive_plus (fun y => sum NA (fun i => xr (upd r k y) i * ln (xr (upd r k y) i)))); [exact D1|].
    instantiate (1 := if Nat.eqb (S k) n then ln (xr r n) - ln (1 - xr r n) else 0).
    apply (is_derive_ext (fun y => (xr r n + (y - r k) * dir k n) * ln (xr r n + (y - r k) * dir k n) + (1 - (xr r n + (y - r k) * dir k n)) * ln (1 - (xr r n + (y - r k) * dir k n)))); [intros y; now rewrite xr_upd|].
    assert (E : dir k n = if Nat.eqb (S k) n then 1 else 0).
    { clear -N1. destruct n as [|m]; [lia|]. cbn [dir Nat.eqb]. now rewrite Nat.eqb_sym. }
    rewrite E. destruct (Nat.eqb_spec (S k) n) as [Ek|Ne].
    + assert (XN : xr r n = r k) by (rewrite <- Ek at 2; exact XK). rewrite XN in *. set (a := r k) in *. auto_derive; [split; [lra|split; [lra|auto]]|].
      match goal with |- ?a = ?b => change (@eq R a b) end. replace (a + (a - a) * 1) with a by ring. replace (a + (a + - a) * 1) with a by ring. replace (1 + - a) with (1 - a) by ring. field. lra.
    + apply (is_derive_ext (fun _ => xr r n * ln (xr r n) + (1 - xr r n) * ln (1 - xr r n))).
      * intros y. match goal with |- ?a = ?b => change (@eq R a b) end. replace (xr r n + (y - r k) * 0) with (xr r n) by ring. reflexivity.
      * apply (is_derive_const (xr r n * ln (xr r n) + (1 - xr r n) * ln (1 - xr r n))).
  - reflexivity.
Qed.
Lemma dgmix_eq t p r k : 0 < r k -> (k < n)%nat -> dgmix t p r k = slope n (W t p) r k + Rg * t * dent r k.
Proof.
  intros Hr Hk. unfold LiqModel.dgmix, dent. rewrite (isZ_ne (r k)) by lra. destruct (Nat.eqb_spec (S k) n) as [E|E]; [|ring].
  rewrite (isZ_ne (xr r n)); [ring|]. rewrite <- E at 2. cbn [LiqModel.xr]. lra.
Qed.
Lemma dsmix_eq r k : 0 < r k -> (k < n)%nat -> dsmix r k = slope n WS r k - Rg * dent r k.
Proof.
  intros Hr Hk. unfold LiqModel.dsmix, dent. rewrite (isZ_ne (r k)) by lra. destruct (Nat.eqb_spec (S k) n) as [E|E]; [|ring].
  rewrite (isZ_ne (xr r n)); [ring|]. rewrite <- E at 2. cbn [LiqModel.xr]. lra.
Qed.

Theorem C83_dgmix t p r k : proper n r -> (k < n)%nat -> 0 < r k -> is_derive (fun y => gmix t p (upd r k y)) (r k) (dgmix t p r k).
Proof.
  intros P Hk Hr. apply (is_derive_ext (fun y => pairs n (W t p) (xr (upd r k y)) + Rg * t * ent (upd r k y))); [intros; now rewrite gmix_eq|].
  rewrite dgmix_eq by auto. apply (is_derive_plus (fun y => pairs n (W t p) (xr (upd r k y)))); [apply pairs_dr; auto; apply SW|].
  apply (is_derive_scal (fun y => ent (upd r k y))). now apply ent_dr.
Qed.
Theorem C83_dsmix r k : proper n r -> (k < n)%nat -> 0 < r k -> is_derive (fun y => smix (upd r k y)) (r k) (dsmix r k).
Proof.
  intros P Hk Hr. apply (is_derive_ext (fun y => pairs n WS (xr (upd r k y)) - Rg * ent (upd r k y))); [intros; now rewrite smix_eq|].
  rewrite dsmix_eq by auto. apply (is_derive_minus (fun y => pairs n WS (xr (upd r k y)))); [apply pairs_dr; auto|].
  apply (is_derive_scal (fun y => ent (upd r k y))). now apply ent_dr.
Qed.
Theorem C83_dvmix r k : (k < n)%nat -> is_derive (fun y => vmix (upd r k y)) (r k) (dvmix n WV r k).
Proof. intros Hk. apply pairs_dr; auto. Qed.
Theorem C83_d2vmix r i j : (i < n)%nat -> (j < n)%nat -> is_derive (fun y => dvmix n WV (upd r j y) i) (r j) (d2vmix WV i j).
Proof. intros Hi Hj. now apply slope_dr. Qed.

(** second derivatives: in each variable, of the reported first derivative *)
Definition d2ent (r : nat -> R) (i j : nat) : R := 1 / xr r 0 + (if Nat.eqb i j then 1 / r i else 0)
  + (if Nat.eqb (S i) n && Nat.eqb (S j) n then 1 / xr r n + 1 / (1 - xr r n) else 0).
Lemma dent_dr r i j : proper n r -> (i < n)%nat -> (j < n)%nat -> 0 < r i -> is_derive (fun y => dent (upd r j y) i) (r j) (d2ent r i j).
Proof.
  intros P Hi Hj Hr. pose proof (proper_x0 r P) as X0. pose proof (proper_last r P) as XL. unfold dent, d2ent.
  assert (DI : dir j n = if Nat.eqb (S j) n then 1 else 0).
  { clear -N1. destruct n as [|m]; [lia|]. cbn [dir Nat.eqb]. now rewrite Nat.eqb_sym. }
  apply (is_derive_ext (fun y => (ln (r i + (y - r j) * (if Nat.eqb i j then 1 else 0)) - ln (xr r 0 + (y - r j) * -1))
     + (if Nat.eqb (S i) n then ln (xr r n + (y - r j) * dir j n) - ln (1 - (xr r n + (y - r j) * dir j n)) else 0))).
  { intros y. rewrite !xr_upd by auto. cbn [dir]. f_equal; f_equal. unfold upd. destruct (Nat.eqb_spec i j); [subst|]; f_equal; match goal with |- ?a = ?b => change (@eq R a b) end; ring. }
  rewrite DI. set (x0 := xr r 0) in *.
  assert (A : is_derive (fun y => ln (r i + (y - r j) * (if i =? j then 1 else 0)) - ln (x0 + (y - r j) * -1)) (r j) (1 / x0 + (if i =? j then 1 / r i else 0))).
  { destruct (Nat.eqb_spec i j) as [Eij|Eij].
    - rewrite <- Eij. set (a := r i) in *. auto_derive; [split; [lra|split; [lra|auto]]|]. match goal with |- ?a = ?b => change (@eq R a b) end. replace (a + (a + - a) * 1) with a by ring. replace (x0 + (a + - a) * -1) with x0 by ring. field. lra.
    - set (b := r j) in *. apply (is_derive_ext (fun y => ln (r i) - ln (x0 + (y - b) * -1))); [intros y; now replace (r i + (y - b) * 0) with (r i) by ring|].
      auto_derive; [lra|]. match goal with |- ?a = ?b => change (@eq R a b) end. replace (x0 + (b + - b) * -1) with x0 by ring. field. lra. }
  assert (B : is_derive (fun y => if S i =? n then ln (xr r n + (y - r j) * (if S j =? n then 1 else 0)) - ln (1 - (xr r n + (y - r j) * (if S j =? n then 1 else 0))) else 0) (r j)
     (if (S i =? n) && (S j =? n) then 1 / xr r n + 1 / (1 - xr r n) else 0)).
  { destruct (Nat.eqb_spec (S i) n) as [Ei|Ei]; [|apply (is_derive_const 0)].
    assert (XN : xr r n = r i) by (rewrite <- Ei at 2; reflexivity). rewrite XN in *. cbn [andb].
    destruct (Nat.eqb_spec (S j) n) as [Ej|Ej].
    - set (a := r i) in *. set (b := r j) in *. auto_derive; [split; [lra|split; [lra|auto]]|]. match goal with |- ?a = ?b => change (@eq R a b) end.
      replace (a + (b + - b) * 1) with a by ring. replace (1 + - a) with (1 - a) by ring. field. lra.
    - set (b := r j) in *. apply (is_derive_ext (fun y => ln (r i) - ln (1 - r i))); [intros y; now replace (r i + (y - b) * 0) with (r i) by ring|].
      apply (is_derive_const (ln (r i) - ln (1 - r i))). }
  exact (is_derive_plus _ _ _ _ _ A B).
Qed.
Lemma d2gmix_eq t p r i j : 0 < r i -> (i < n)%nat -> d2gmix t p r i j = curve (W t p) i j + Rg * t * d2ent r i j.
Proof.
  intros Hr Hi. unfold LiqModel.d2gmix, d2ent. rewrite (isZ_ne (r i)) by lra. destruct (Nat.eqb_spec (S i) n) as [E|E]; cbn [andb].
  - assert (XN : xr r n = r i) by (rewrite <- E at 2; reflexivity). rewrite (isZ_ne (xr r n)) by (rewrite XN; lra). destruct (S j =? n), (i =? j); unfold Rdiv; ring.
  - destruct (i =? j); unfold Rdiv; ring.
Qed.
Lemma d2smix_eq r i j : 0 < r i -> (i < n)%nat -> d2smix r i j = curve WS i j - Rg * d2ent r i j.
Proof.
  intros Hr Hi. unfold LiqModel.d2smix, d2ent. rewrite (isZ_ne (r i)) by lra. destruct (Nat.eqb_spec (S i) n) as [E|E]; cbn [andb].
  - assert (XN : xr r n = r i) by (rewrite <- E at 2; reflexivity). rewrite (isZ_ne (xr r n)) by (rewrite XN; lra). destruct (S j =? n), (i =? j); unfold Rdiv; ring.
  - destruct (i =? j); unfold Rdiv; ring.
Qed.
(** near a point where component i is present, dgmix i is the smooth expression *)
Lemma near_pos r i j : (0 < r i) -> exists eps : posreal, forall y, Rabs (y - r j) < eps -> 0 < upd r j y i.
Proof.
  intros Hr. exists (mkposreal (r i) Hr). intros y Hy. cbn in Hy. unfold upd. destruct (Nat.eqb_spec i j); [subst|auto]. apply Rabs_def2 in Hy. lra.
Qed.
Theorem C83_d2gmix t p r i j : proper n r -> (i < n)%nat -> (j < n)%nat -> 0 < r i -> is_derive (fun y => dgmix t p (upd r j y) i) (r j) (d2gmix t p r i j).
Proof.
  intros P Hi Hj Hr. destruct (near_pos r i j Hr) as [eps He].
  apply (is_derive_near _ (fun y => slope n (W t p) (upd r j y) i + Rg * t * dent (upd r j y) i) _ _ eps); [intros y Hy; apply dgmix_eq; auto|].
  rewrite d2gmix_eq by auto. apply (is_derive_plus (fun y => slope n (W t p) (upd r j y) i)); [apply slope_dr; auto; apply SW|].
  apply (is_derive_scal (fun y => dent (upd r j y) i)). now apply dent_dr.
Qed.
Theorem C83_d2smix r i j : proper n r -> (i < n)%nat -> (j < n)%nat -> 0 < r i -> is_derive (fun y => dsmix (upd r j y) i) (r j) (d2smix r i j).
Proof.
  intros P Hi Hj Hr. destruct (near_pos r i j Hr) as [eps He].
  apply (is_derive_near _ (fun y => slope n WS (upd r j y) i - Rg * dent (upd r j y) i) _ _ eps); [intros y Hy; apply dsmix_eq; auto|].
  rewrite d2smix_eq by auto. apply (is_derive_minus (fun y => slope n WS (upd r j y) i)); [apply slope_dr; auto|].
  apply (is_derive_scal (fun y => dent (upd r j y) i)). now apply dent_dr.
Qed.

(** ** C84: chemical potentials *)
Lemma lnGamma_row t p r i : (i < NA)%nat -> lnGamma t p r i = row n (W t p) (xr r) i - gex t p r.
Proof.
  intros Hi. unfold LiqModel.lnGamma, row. rewrite (sum_below NA i) by lia. rewrite Rplus_assoc, <- sum_plus. rewrite Rplus_comm. unfold Rminus. f_equal.
  apply sum_ext. intros j Hj. destruct (Nat.ltb_spec j i), (Nat.ltb_spec i j), (Nat.eqb_spec j i); try lia; ring.
Qed.
Lemma mu_eq t p r i : (i < NA)%nat -> 0 < xr r i -> mu t p r i = row n (W t p) (xr r) i - gex t p r + Rg * t * (ln (xr r i) + (if Nat.eqb i n then ln (xr r n) else ln (1 - xr r n))).
Proof.
  intros Hi Hx. unfold LiqModel.mu. rewrite (isZ_ne (xr r i)) by lra. rewrite lnGamma_row by auto. destruct (Nat.eqb_spec i n) as [E|E]; [|ring].
  subst i. rewrite (isZ_ne (xr r n)) by lra. ring.
Qed.
(** the Gibbs energy is the sum of mole fractions times potentials, components that are absent included *)
Theorem C84_euler t p r : (forall i, (i < NA)%nat -> 0 <= xr r i) -> gmix t p r = sum NA (fun i => xr r i * mu t p r i).
Proof.
  intros P. rewrite gmix_eq.
  rewrite (sum_ext NA (fun i => xr r i * mu t p r i) (fun i => xr r i * row n (W t p) (xr r) i + ((- gex t p r) * xr r i + Rg * t * (xr r i * ln (xr r i) + (if Nat.eqb i n then xr r i * ln (xr r n) else xr r i * ln (1 - xr r n)))))).
  - rewrite !sum_plus, !sum_scal, !sum_plus, sum_xr. rewrite (pairs_row n (W t p) (SW t p)). unfold LiqModel.gex. unfold ent.
    assert (E : sum NA (fun i => if i =? n then xr r i * ln (xr r n) else xr r i * ln (1 - xr r n)) = xr r n * ln (xr r n) + (1 - xr r n) * ln (1 - xr r n)).
    { cbn [sum]. rewrite Nat.eqb_refl. rewrite (sum_ext n _ (fun i => xr r i * ln (1 - xr r n))) by (intros i Hi; replace (i =? n) with false by (symmetry; apply Nat.eqb_neq; lia); reflexivity).
      rewrite sum_scal_r. pose proof (sum_xr n r) as S1. cbn [sum] in S1. replace (sum n (xr r)) with (1 - xr r n) by lra.
      replace (sum n (fun i => xr r i)) with (1 - xr r n) by (change (fun i => xr r i) with (xr r); lra). ring. }
    rewrite E. ring.
  - intros i Hi. destruct (P i Hi) as [L|Z].
    + rewrite mu_eq by auto. destruct (i =? n); ring.
    + rewrite <- Z. destruct (i =? n); ring.
Qed.
(** the reported derivative is the difference of potentials *)
Theorem C84_tangent t p r k : proper n r -> (k < n)%nat -> 0 < r k -> dgmix t p r k = mu t p r (S k) - mu t p r 0.
Proof.
  intros P Hk Hr. pose proof (proper_x0 r P). rewrite dgmix_eq by auto. rewrite !mu_eq; try lia; auto. rewrite slope_row by (auto; apply SW). unfold dent.
  replace (0 =? n) with false by (symmetry; apply Nat.eqb_neq; lia). cbn [LiqModel.xr]. destruct (Nat.eqb (S k) n); ring.
Qed.
(** potential and activity *)
Theorem C84_activity t p r i : proper n r -> (i < NA)%nat -> 0 < xr r i -> 0 < t -> 0 < act t p r i /\ mu t p r i = Rg * t * ln (act t p r i).
Proof.
  intros P Hi Hx Ht. pose proof (proper_last r P) as XL. assert (RT : 0 < Rg * t) by (apply Rmult_lt_0_compat; [unfold Rg; lra|auto]).
  unfold LiqModel.act. rewrite (isZ_ne (xr r i)) by lra. rewrite mu_eq by auto. set (E := lnGamma t p r i). pose proof (exp_pos (E / (Rg * t))) as EP.
  assert (HE : row n (W t p) (xr r) i - gex t p r = E) by (unfold E; now rewrite lnGamma_row).
  rewrite HE. destruct (Nat.eqb_spec i n) as [En|En].
  - subst i. assert (PP : 0 < xr r n * exp (E / (Rg * t))) by (apply Rmult_lt_0_compat; auto). split; [apply Rmult_lt_0_compat; auto|].
    rewrite !ln_mult by auto. rewrite ln_exp. field. unfold Rg; lra.
  - assert (PP : 0 < xr r i * exp (E / (Rg * t))) by (apply Rmult_lt_0_compat; auto). split; [apply Rmult_lt_0_compat; auto|].
    rewrite !ln_mult by auto. rewrite ln_exp. field. unfold Rg; lra.
Qed.
Theorem C84_absent t p r i : xr r i = 0 -> act t p r i = 0.
Proof. intros Z. unfold LiqModel.act. rewrite (proj2 (isZ_spec _) Z). destruct (i =? n); ring. Qed.

(** ** C85: moles and mole fractions *)
Notation total := (total n).
Notation rOf := (rOf n).
Notation drOf := (drOf n).
Notation d2rOf := (d2rOf n).
Lemma total_upd m k y : (k < NA)%nat -> total (upd m k y) = total m + (y - m k).
Proof. intros Hk. unfold LiqModel.total. now apply sum_upd. Qed.
Lemma total_near m k : (k < NA)%nat -> total m <> 0 -> exists eps : posreal, forall y, Rabs (y - m k) < eps -> total (upd m k y) <> 0.
Proof.
  intros Hk N0. exists (mkposreal (Rabs (total m)) (Rabs_pos_lt _ N0)). intros y Hy Hz. cbn [pos] in Hy. rewrite total_upd in Hz by auto.
  replace (y - m k) with (- total m) in Hy by lra. rewrite Rabs_Ropp in Hy. lra.
Qed.
Theorem C85_fractions m i : total m <> 0 -> (i < NA)%nat -> xr (rOf m) i = xOf n m i /\ xOf n m i = m i / total m.
Proof.
  intros N0 Hi. split; [|unfold xOf; now rewrite (isZ_ne _ N0)]. unfold xOf, LiqModel.rOf. destruct i as [|i]; cbn [LiqModel.xr]; rewrite (isZ_ne _ N0); [|reflexivity].
  rewrite (sum_ext n _ (fun i => / total m * m (S i))) by (intros; unfold Rdiv; ring). rewrite sum_scal.
  assert (E : total m = m 0%nat + sum n (fun j => m (S j))) by apply sum_first. rewrite E in N0 |- *. field. auto.
Qed.
Theorem C85_proper m : (forall i, (i < NA)%nat -> 0 <= m i) -> 0 < m 0%nat -> proper n (rOf m) /\ testR n (rOf m).
Proof.
  intros P M0. assert (NP : 0 < total m) by (eapply Rlt_le_trans; [exact M0|]; apply (sum_ge NA m 0); [auto|lia]).
  assert (A : forall i, (i < n)%nat -> 0 <= rOf m i).
  { intros i Hi. unfold LiqModel.rOf. rewrite isZ_ne by lra. apply Rmult_le_pos; [apply P; lia|]. left. now apply Rinv_0_lt_compat. }
  assert (B : sum n (rOf m) < 1).
  { destruct (C85_fractions m 0 ltac:(lra) ltac:(lia)) as [E1 E2]. cbn [LiqModel.xr] in E1. assert (0 < m 0%nat / total m) by (apply Rmult_lt_0_compat; auto; now apply Rinv_0_lt_compat). lra. }
  split; [split; auto|]. split; [|lra]. intros i Hi. split; auto. pose proof (sum_ge n (rOf m) i A Hi). lra.
Qed.
Theorem C85_dr m i k : total m <> 0 -> (i < n)%nat -> (k < NA)%nat -> is_derive (fun y => rOf (upd m k y) i) (m k) (drOf m i k).
Proof.
  intros N0 Hi Hk. destruct (total_near m k Hk N0) as [eps He].
  apply (is_derive_near _ (fun y => (m (S i) + (y - m k) * (if Nat.eqb (S i) k then 1 else 0)) / (total m + (y - m k))) _ _ eps).
  - intros y Hy. unfold LiqModel.rOf. rewrite (isZ_ne _ (He y Hy)), total_upd by auto. f_equal. unfold upd. destruct (Nat.eqb_spec (S i) k); [subst|]; ring.
  - unfold LiqModel.drOf. rewrite (isZ_ne _ N0). set (N := total m) in *. destruct (Nat.eqb_spec (S i) k) as [<-|].
    + set (a := m (S i)) in *. auto_derive; [intros Hz; apply N0; lra|]. match goal with |- ?a = ?b => change (@eq R a b) end. replace (N + (a + - a)) with N by ring. field. auto.
    + set (a := m (S i)) in *. set (c := m k) in *. auto_derive; [intros Hz; apply N0; lra|]. match goal with |- ?a = ?b => change (@eq R a b) end. replace (N + (c + - c)) with N by ring. field. auto.
Qed.
Theorem C85_d2r m i j k : total m <> 0 -> (i < n)%nat -> (j < NA)%nat -> (k < NA)%nat -> is_derive (fun y => drOf (upd m k y) i j) (m k) (d2rOf m i j k).
Proof.
  intros N0 Hi Hj Hk. destruct (total_near m k Hk N0) as [eps He].
  set (e := if Nat.eqb (S i) k then 1 else 0). set (e' := if Nat.eqb (S i) j then 1 else 0).
  apply (is_derive_near _ (fun y => e' / (total m + (y - m k)) - (m (S i) + (y - m k) * e) / ((total m + (y - m k)) * (total m + (y - m k)))) _ _ eps).
  - intros y Hy. pose proof (He y Hy) as Ny. unfold LiqModel.drOf. rewrite (isZ_ne _ Ny). rewrite total_upd in * by auto.
    replace (upd m k y (S i)) with (m (S i) + (y - m k) * e) by (unfold e, upd; destruct (Nat.eqb_spec (S i) k) as [->|]; ring).
    unfold e'. destruct (S i =? j); field; auto.
  - unfold LiqModel.d2rOf. rewrite (isZ_ne _ N0). set (N := total m) in *. set (a := m (S i)) in *. set (c := m k) in *.
    replace (if S i =? j then 1 / (N * N) else 0) with (e' / (N * N)) by (unfold e'; destruct (S i =? j); field; auto).
    replace (if S i =? k then 1 / (N * N) else 0) with (e / (N * N)) by (unfold e; destruct (S i =? k); field; auto). clearbody e' e.
    eapply is_derive_eq; [auto_derive; [|reflexivity]; repeat split; try (intros Hz; apply N0; lra); intros Hz; apply Rmult_integral in Hz; apply N0; lra|].
    replace (N + (c + - c)) with N by ring. field. auto.
Qed.

(** *** The reported potentials are the partial molar Gibbs energies *)
Lemma sum_upd_f N (f : R -> R) m k y : (k < N)%nat -> sum N (fun i => f (upd m k y i)) = sum N (fun i => f (m i)) - f (m k) + f y.
Proof.
  intros Hk. rewrite (sum_ext N _ (fun i => f (m i) + (if Nat.eqb i k then f y - f (m k) else 0))).
  - rewrite sum_plus, sum_one. apply Nat.ltb_lt in Hk. rewrite Hk. ring.
  - intros i Hi. unfold upd. destruct (Nat.eqb_spec i k); [subst|]; ring.
Qed.
Definition Gtot (t p : R) (m : nat -> R) : R := total m * gmix t p (rOf m).
Lemma Gtot_closed t p m : (forall i, (i < NA)%nat -> 0 <= m i) -> 0 < total m -> 0 < total m - m n ->
  Gtot t p m = pairs n (W t p) m / total m + Rg * t * (sum NA (fun i => m i * ln (m i)) + m n * ln (m n) + (total m - m n) * ln (total m - m n) - 2 * (total m * ln (total m))).
Proof.
  intros P NP NW. unfold Gtot. rewrite gmix_eq.
  assert (X : forall i, (i < NA)%nat -> xr (rOf m) i = / total m * m i) by (intros i Hi; destruct (C85_fractions m i ltac:(lra) Hi) as [-> ->]; unfold Rdiv; ring).
  rewrite (pairs_ext n (W t p) _ (fun i => / total m * m i)) by auto. rewrite pairs_scal. unfold ent.
  rewrite (sum_ext NA (fun i => xr (rOf m) i * ln (xr (rOf m) i)) (fun i => / total m * (m i * ln (m i)) + (- / total m * ln (total m)) * m i)).
  - rewrite sum_plus, !sum_scal. fold (total m). rewrite (X n) by lia.
    assert (EL : total m * (1 - / total m * m n) * ln (1 - / total m * m n) = (total m - m n) * (ln (total m - m n) - ln (total m))).
    { replace (1 - / total m * m n) with ((total m - m n) / total m) by (field; lra). rewrite ln_div by auto. field. lra. }
    assert (EW : m n * ln (/ total m * m n) = m n * (ln (m n) - ln (total m))).
    { destruct (P n ltac:(lia)) as [L|Z]; [|rewrite <- Z; ring]. rewrite ln_mult by (auto using Rinv_0_lt_compat). rewrite ln_Rinv by auto. ring. }
    set (N := total m) in *. set (SM := sum NA _). set (PW := pairs n _ _). set (l1 := ln (1 - / N * m n)) in *. set (l2 := ln (/ N * m n)) in *.
    replace (N * (/ N * / N * PW + Rg * t * (/ N * SM + - / N * ln N * N + (/ N * m n * l2 + (1 - / N * m n) * l1)))) with
      (PW / N + Rg * t * (SM - N * ln N + m n * l2 + N * (1 - / N * m n) * l1)) by (field; lra).
    rewrite EL, EW. ring.
  - intros i Hi. rewrite (X i Hi). destruct (P i Hi) as [L|Z]; [|rewrite <- Z; ring]. rewrite ln_mult by (auto using Rinv_0_lt_compat). rewrite ln_Rinv by auto. ring.
Qed.
Theorem C84_partial_molar t p m k : (forall i, (i < NA)%nat -> 0 <= m i) -> (k < NA)%nat -> 0 < m k -> 0 < total m - m n ->
  is_derive (fun y => Gtot t p (upd m k y)) (m k) (mu t p (rOf m) k).
Proof.
  intros P Hk Mk NW. assert (NP : 0 < total m) by (specialize (P n ltac:(lia)); lra).
  assert (X : forall i, (i < NA)%nat -> xr (rOf m) i = / total m * m i) by (intros i Hi; destruct (C85_fractions m i ltac:(lra) Hi) as [-> ->]; unfold Rdiv; ring).
  set (d := Rmin (m k) (total m - m n)). assert (DP : 0 < d) by (unfold d; now apply Rmin_pos).
  assert (Near : forall y, Rabs (y - m k) < d -> 0 < y /\ 0 < total m + (y - m k) /\ (k <> n -> 0 < total m - m n + (y - m k))).
  { intros y Hy. apply Rabs_def2 in Hy. pose proof (Rmin_l (m k) (total m - m n)). pose proof (Rmin_r (m k) (total m - m n)). fold d in H, H0. specialize (P n ltac:(lia)). repeat split; intros; lra. }
  apply (is_derive_near _ (fun y => (pairs n (W t p) m + (y - m k) * row n (W t p) m k) / (total m + (y - m k))
      + Rg * t * ((sum NA (fun i => m i * ln (m i)) - m k * ln (m k) + y * ln y) + (if Nat.eqb k n then y * ln y else m n * ln (m n))
        + (if Nat.eqb k n then (total m - m n) * ln (total m - m n) else (total m - m n + (y - m k)) * ln (total m - m n + (y - m k)))
        - 2 * ((total m + (y - m k)) * ln (total m + (y - m k))))) _ _ (mkposreal d DP)).
  - intros y Hy. destruct (Near y Hy) as (Y0 & Y1 & Y2). rewrite Gtot_closed.
    + rewrite total_upd by auto.
      assert (EP : pairs n (W t p) (upd m k y) = pairs n (W t p) m + (y - m k) * row n (W t p) m k).
      { rewrite (pairs_ext n (W t p) _ (fun i => m i + (y - m k) * (if Nat.eqb i k then 1 else 0))) by (intros i Hi; unfold upd; destruct (Nat.eqb_spec i k); [subst|]; ring).
        rewrite (pairs_line n (W t p) (SW t p)).
        rewrite (sum_ext NA (fun i => (if Nat.eqb i k then 1 else 0) * row n (W t p) m i) (fun i => if Nat.eqb i k then row n (W t p) m i else 0)) by (intros i Hi; destruct (Nat.eqb i k); ring).
        rewrite (sum_one_f NA k). replace (k <? NA)%nat with true by (symmetry; now apply Nat.ltb_lt).
        replace (pairs n (W t p) (fun i => if Nat.eqb i k then 1 else 0)) with 0; [ring|]. symmetry. unfold pairs. apply sum_0. intros i Hi. apply sum_0. intros j Hj.
        destruct (Nat.ltb_spec i j); auto. destruct (Nat.eqb_spec i k), (Nat.eqb_spec j k); try lia; ring. }
      rewrite EP. f_equal. f_equal. rewrite (sum_upd_f NA (fun x => x * ln x)) by auto. unfold upd at 1 2. destruct (Nat.eqb_spec n k) as [E|E].
      * subst k. rewrite Nat.eqb_refl. unfold upd. rewrite Nat.eqb_refl. replace (total m + (y - m n) - y) with (total m - m n) by ring. ring.
      * replace (k =? n) with false by (symmetry; apply Nat.eqb_neq; auto). unfold upd. apply Nat.eqb_neq in E. rewrite E. replace (total m + (y - m k) - m n) with (total m - m n + (y - m k)) by ring. ring.
    + intros i Hi. unfold upd. destruct (i =? k); [lra|auto].
    + rewrite total_upd by auto. exact Y1.
    + rewrite total_upd by auto. unfold upd. destruct (Nat.eqb_spec n k) as [E|E]; [subst k; lra|specialize (Y2 ltac:(auto)); lra].
  - assert (Xk : 0 < xr (rOf m) k) by (rewrite X by auto; apply Rmult_lt_0_compat; auto; now apply Rinv_0_lt_compat).
    rewrite (mu_eq t p (rOf m) k Hk Xk). unfold LiqModel.gex. rewrite (row_ext n (W t p) (xr (rOf m)) (fun i => / total m * m i) k X). rewrite (pairs_ext n (W t p) (xr (rOf m)) (fun i => / total m * m i) X).
    rewrite pairs_scal, row_scal. rewrite (X k Hk), (X n) by lia.
    rewrite (ln_mult (/ total m) (m k)) by (auto using Rinv_0_lt_compat). rewrite ln_Rinv by auto.
    replace (1 - / total m * m n) with ((total m - m n) / total m) by (field; lra). rewrite ln_div by auto.
    set (N := total m) in *. set (PW := pairs n _ _). set (RW := row n _ _ _). set (SM := sum NA _). set (a := m k) in *.
    destruct (Nat.eqb_spec k n) as [E|E].
    + assert (EA : m n = a) by (unfold a; now rewrite E). rewrite EA. rewrite (ln_mult (/ N) a) by (auto using Rinv_0_lt_compat). rewrite ln_Rinv by auto.
      generalize ((N - a) * ln (N - a)). intros c1. generalize dependent SM. intros SM. auto_derive.
      * replace (N + (a + - a)) with N by ring. repeat split; auto; lra.
      * match goal with |- ?a = ?b => change (@eq R a b) end. replace (N + (a + - a)) with N by ring. field. lra.
    + set (b := m n) in *. auto_derive.
      * replace (N + (a + - a)) with N by ring. replace (N - b + (a - a)) with (N - b) by ring. replace (N + - b + (a + - a)) with (N + - b) by ring. repeat split; auto; lra.
      * match goal with |- ?a = ?b => change (@eq R a b) end. replace (N + (a + - a)) with N by ring. replace (N + - b + (a + - a)) with (N - b) by ring. replace (N - b + (a + - a)) with (N - b) by ring. field. lra.
Qed.

(** ** C86: derivatives of the activities *)
Lemma prod3 (u v L : R -> R) y du dv dL c : c <> 0 -> is_derive u y du -> is_derive v y dv -> is_derive L y dL ->
  is_derive (fun y => v y * (u y * exp (L y / c))) y (dv * (u y * exp (L y / c)) + v y * (du * exp (L y / c) + u y * (exp (L y / c) * (dL / c)))).
Proof.
  intros Hc Du Dv DL. auto_derive.
  - repeat split; eexists; eauto.
  - replace (Derive (fun x => u x) y) with du by (symmetry; apply is_derive_unique; exact Du). replace (Derive (fun x => v x) y) with dv by (symmetry; apply is_derive_unique; exact Dv).
    replace (Derive (fun x => L x) y) with dL by (symmetry; apply is_derive_unique; exact DL). match goal with |- ?a = ?b => change (@eq R a b) end. unfold Rdiv. ring.
Qed.
Lemma xr_dr r j i : (j < n)%nat -> is_derive (fun y => xr (upd r j y) i) (r j) (dir j i).
Proof.
  intros Hj. apply (is_derive_ext (fun y => xr r i + (y - r j) * dir j i)); [intros y; now rewrite xr_upd|].
  generalize (xr r i) (r j) (dir j i). intros a b c. auto_derive; auto. match goal with |- ?a = ?b => change (@eq R a b) end. ring.
Qed.
Lemma lnGamma_dr t p r i j : (i < NA)%nat -> (j < n)%nat ->
  is_derive (fun y => lnGamma t p (upd r j y) i) (r j) ((if Nat.eqb (S j) i then 0 else W t p i (S j)) - (if Nat.eqb 0%nat i then 0 else W t p i 0%nat) - slope n (W t p) r j).
Proof.
  intros Hi Hj. apply (is_derive_ext (fun y => row n (W t p) (xr (upd r j y)) i - pairs n (W t p) (xr (upd r j y)))); [intros y; now rewrite lnGamma_row|].
  apply (is_derive_minus (fun y => row n (W t p) (xr (upd r j y)) i)); [apply row_dr; auto|]. apply pairs_dr; auto. apply SW.
Qed.
Theorem C86_dact_partial t p r i j : proper n r -> (i < NA)%nat -> (j < n)%nat -> 0 < xr r i -> 0 < t ->
  is_derive (fun y => act t p (upd r j y) i) (r j) (dact t p r i j).
Proof.
  intros P Hi Hj Hx Ht. pose proof (proper_x0 r P) as X0. pose proof (proper_last r P) as XL.
  assert (RT : 0 < Rg * t) by (apply Rmult_lt_0_compat; [unfold Rg; lra|auto]).
  assert (DN : dir j n = if Nat.eqb (S j) n then 1 else 0) by (clear -N1; destruct n as [|m]; [lia|]; cbn [dir Nat.eqb]; now rewrite Nat.eqb_sym).
  assert (UR : upd r j (r j) = r \/ True) by auto. clear UR.
  assert (X1 : forall l, xr (upd r j (r j)) l = xr r l) by (intros l; rewrite xr_upd by auto; ring).
  assert (G1 : lnGamma t p (upd r j (r j)) i = lnGamma t p r i).
  { rewrite !lnGamma_row by auto. unfold LiqModel.gex. rewrite (row_ext n (W t p) _ (xr r)) by auto. now rewrite (pairs_ext n (W t p) _ (xr r)) by auto. }
  apply (is_derive_near _ (fun y => (if Nat.eqb i n then xr (upd r j y) n else 1 - xr (upd r j y) n) * (xr (upd r j y) i * exp (lnGamma t p (upd r j y) i / (Rg * t)))) _ _ (mkposreal (xr r i) Hx)).
  { intros y Hy. cbn [pos] in Hy. apply Rabs_def2 in Hy. unfold LiqModel.act. rewrite (isZ_ne (xr (upd r j y) i)); [destruct (i =? n); reflexivity|].
    rewrite xr_upd by auto. assert (DD : dir j i = -1 \/ dir j i = 1 \/ dir j i = 0) by (destruct i as [|i']; cbn [dir]; [auto|destruct (i' =? j); auto]).
    destruct DD as [->|[->| ->]]; lra. }
  eapply is_derive_eq.
  - apply (prod3 (fun y => xr (upd r j y) i) (fun y => if Nat.eqb i n then xr (upd r j y) n else 1 - xr (upd r j y) n) (fun y => lnGamma t p (upd r j y) i) (r j)
      (dir j i) (if Nat.eqb i n then dir j n else - dir j n) ((if Nat.eqb (S j) i then 0 else W t p i (S j)) - (if Nat.eqb 0%nat i then 0 else W t p i 0%nat) - slope n (W t p) r j) (Rg * t)); [lra|now apply xr_dr| |now apply lnGamma_dr].
    destruct (i =? n); [now apply xr_dr|]. eapply is_derive_eq; [apply (is_derive_minus (fun _ => 1)); [apply (is_derive_const 1)|now apply xr_dr]|]. unfold minus, plus, opp, zero; cbn. ring.
  - cbv beta. rewrite !X1, G1, DN.
    assert (AC : act t p r i = (if i =? n then xr r n else 1 - xr r n) * (xr r i * exp (lnGamma t p r i / (Rg * t)))) by (unfold LiqModel.act; rewrite (isZ_ne (xr r i)) by lra; destruct (i =? n); reflexivity).
    unfold LiqModel.dact. rewrite (SW t p 0%nat i) by lia. set (E := exp _) in *. set (SL := slope _ _ _ _). 
    destruct i as [|i'].
    + replace (0 =? n) with false in * by (symmetry; apply Nat.eqb_neq; lia). cbn [dir] in *. change (0 =? 0) with true. change (S j =? 0) with false. cbv iota. rewrite AC.
      set (x0 := xr r 0) in *. set (xn := xr r n) in *. destruct (S j =? n); field; repeat split; unfold Rg; lra.
    + cbn [dir]. change (0 =? S i') with false. cbv iota. rewrite AC. change (S i' =? S j) with (i' =? j). change (S j =? S i') with (j =? i'). rewrite (Nat.eqb_sym j i').
      assert (XI : xr r (S i') = r i') by reflexivity. rewrite XI in *.
      destruct (Nat.eqb_spec (S i') n) as [En|En].
      * assert (XN : xr r n = r i') by (rewrite <- En at 2; reflexivity). rewrite XN in *. rewrite (isZ_ne (r i')) by lra. cbn [negb andb].
        destruct (Nat.eqb_spec i' j) as [Eij|Eij].
        -- rewrite <- Eij. rewrite (isZ_ne (r i')) by lra. replace (S i' =? n) with true by (symmetry; now apply Nat.eqb_eq). cbn [andb]. field. repeat split; unfold Rg; lra.
        -- replace (S j =? n) with false by (symmetry; apply Nat.eqb_neq; lia). cbn [andb]. field. repeat split; unfold Rg; lra.
      * cbn [negb andb]. destruct (Nat.eqb_spec i' j) as [Eij|Eij].
        -- rewrite <- Eij. rewrite (isZ_ne (r i')) by lra. replace (S i' =? n) with false by (symmetry; now apply Nat.eqb_neq). field. repeat split; unfold Rg; lra.
        -- destruct (S j =? n); field; repeat split; unfold Rg; lra.
Qed.
(** the same as a property of its own (C119) *)
Theorem C119_dact t p r i j : proper n r -> (i < NA)%nat -> (j < n)%nat -> 0 < xr r i -> 0 < t ->
  is_derive (fun y => act t p (upd r j y) i) (r j) (dact t p r i j).
Proof. exact (C86_dact_partial t p r i j). Qed.
(** where the component is absent the reported derivative is 0, the true one is not (one-sided: the activity grows linearly) *)
Theorem C86_refuted t p r j : proper n r -> (S j < n)%nat -> r j = 0 -> 0 < t ->
  dact t p r (S j) j = 0 /\ exists c, 0 < c /\ is_derive (fun y => act t p (upd r j y) (S j)) (r j) c.
Proof.
  intros P Hj Z Ht. pose proof (proper_last r P) as XL. assert (RT : 0 < Rg * t) by (apply Rmult_lt_0_compat; [unfold Rg; lra|auto]).
  assert (A0 : act t p r (S j) = 0) by (apply C84_absent; exact Z).
  split; [unfold LiqModel.dact; rewrite A0; unfold Rdiv; ring|].
  exists ((1 - xr r n) * exp (lnGamma t p r (S j) / (Rg * t))). split; [apply Rmult_lt_0_compat; [auto|apply exp_pos]|].
  assert (XN : forall y, xr (upd r j y) n = xr r n).
  { intros y. rewrite !last_r. unfold upd. now replace (n - 1 =? j)%nat with false by (symmetry; apply Nat.eqb_neq; lia). }
  assert (G1 : lnGamma t p (upd r j (r j)) (S j) = lnGamma t p r (S j)).
  { assert (X1 : forall l, xr (upd r j (r j)) l = xr r l) by (intros l; rewrite xr_upd by lia; ring).
    rewrite !lnGamma_row by lia. unfold LiqModel.gex. rewrite (row_ext n (W t p) _ (xr r)) by auto. now rewrite (pairs_ext n (W t p) _ (xr r)) by auto. }
  apply (is_derive_ext (fun y => (1 - xr r n) * (y * exp (lnGamma t p (upd r j y) (S j) / (Rg * t))))).
  { intros y. unfold LiqModel.act. replace (S j =? n) with false by (symmetry; apply Nat.eqb_neq; lia). rewrite XN.
    assert (E : xr (upd r j y) (S j) = y) by (cbn [LiqModel.xr]; unfold upd; now rewrite Nat.eqb_refl). rewrite E.
    destruct (isZ y) eqn:Zy; [apply isZ_spec in Zy; subst y; match goal with |- ?a = ?b => change (@eq R a b) end; ring|reflexivity]. }
  eapply is_derive_eq; [eapply (prod3 (fun y => y) (fun _ => 1 - xr r n) (fun y => lnGamma t p (upd r j y) (S j)) (r j) 1 0); [|apply (is_derive_id (r j))|apply (is_derive_const (1 - xr r n))|apply lnGamma_dr; lia]; lra|].
  cbv beta. rewrite G1, Z. ring.
Qed.
End L.

(** ** The program's case: 19 components, parameters looked up by pair, and a liquid with a twentieth of everything but silica *)
Theorem C83_witness par : symmetric NR (byPair par) /\ proper NR (fun _ => 1 / 20) /\ (1 <= NR)%nat /\
  (forall t p, is_derive (fun y => gmix NR (byPair par) (byPair par) (byPair par) t p (upd (fun _ => 1 / 20) 3 y)) (1 / 20)
     (dgmix NR (byPair par) (byPair par) (byPair par) t p (fun _ => 1 / 20) 3)) /\
  (forall r t, is_derive (fun t : R => smix NR (byPair par) r) t (cpmix / t)).
Proof.
  assert (S : symmetric NR (byPair par)) by (intros i j Hi Hj; apply byPair_sym; unfold NR in *; lia).
  assert (P : proper NR (fun _ => 1 / 20)) by (split; [intros; lra|]; unfold NR; cbn [sum]; lra).
  split; [exact S|]. split; [exact P|]. split; [unfold NR; lia|]. split.
  - intros t p. apply (C83_dgmix NR _ _ _ S S S ltac:(unfold NR; lia) t p (fun _ => 1 / 20) 3%nat P); [unfold NR; lia | lra].
  - intros r t. unfold cpmix. replace (0 / t) with 0 by (unfold Rdiv; ring). apply (is_derive_const (V := R_NormedModule)).
Qed.
(** the same liquid without its second component *)
Theorem C86_witness par t p : 0 < t ->
  exists c, 0 < c /\ is_derive (fun y => act NR (byPair par) (byPair par) (byPair par) t p (upd (fun i => if Nat.eqb i 0 then 0 else 1 / 20) 0 y) 1) 0 c /\
  dact NR (byPair par) (byPair par) (byPair par) t p (fun i => if Nat.eqb i 0 then 0 else 1 / 20) 1 0 = 0.
Proof.
  intros Ht. destruct (C83_witness par) as [S _].
  assert (P : proper NR (fun i => if Nat.eqb i 0 then 0 else 1 / 20)) by (split; [intros i _; destruct (i =? 0); lra|]; unfold NR; cbn [sum Nat.eqb]; lra).
  destruct (C86_refuted NR (byPair par) (byPair par) (byPair par) S S S ltac:(unfold NR; lia) t p _ 0%nat P ltac:(unfold NR; lia) eq_refl Ht) as [D [c [C0 C1]]].
  exists c. split; [exact C0|]. split; [exact C1|exact D].
Qed.
