(** Proofs for HpModel. *)
From Coq Require Import Reals Lra Lia.
From Verif Require Import RealTac EosSpec EosModel EosProofs HpModel.
Local Open Scope R_scope.

Ltac ader := repeat match goal with H : is_derive ?f ?x ?l |- context [Derive ?g ?x] =>
   replace (Derive g x) with l by (symmetry; apply is_derive_unique; exact H) end.

(** quarter powers as integer powers of the fourth root *)
Lemma pow_q b (n : nat) (k : R) : 0 < b -> k = INR n / 4 -> pow b k = (pow b (/ 4)) ^ n.
Proof.
  intros Hb ->. unfold pow. rewrite <- Rpower_pow by (apply exp_pos). rewrite Rpower_mult. f_equal. field.
Qed.
Lemma pow_q4 b : 0 < b -> b = (pow b (/4)) ^ 4.
Proof. intro H. rewrite <- (pow_q b 4 1) by (try assumption; cbn; lra). unfold pow. rewrite Rpower_1 by assumption. reflexivity. Qed.
Lemma pow_pos b k : 0 < pow b k. Proof. apply exp_pos. Qed.

Lemma pow_derive (B : R -> R) x b k : 0 < B x -> is_derive B x b -> is_derive (fun u => pow (B u) k) x (k * b / B x * pow (B x) k).
Proof.
  intros HB D. unfold pow, Rpower. auto_derive; [csplit; try exact I; solve [eexists; exact D|exact HB]|]. ader. field. lra.
Qed.

(** ** the T-dependence of the volume factor *)
Lemma hp_v_dt f a0 t : 0 < t -> is_derive (hp_v f a0) t (hp_dv f a0 t).
Proof.
  intro Ht. unfold hp_v, hp_dv. generalize tr. intro tr'. dec. pose proof (sqrt_lt_R0 t Ht). auto_derive; [lra|]. field. lra.
Qed.
Lemma hp_dv_dt f a0 t : 0 < t -> is_derive (hp_dv f a0) t (hp_d2v f a0 t).
Proof.
  intro Ht. unfold hp_dv, hp_d2v, pow. rewrite rpower_32' by assumption. dec. pose proof (sqrt_lt_R0 t Ht) as Hs.
  pose proof (sqrt_sqrt t (Rlt_le _ _ Ht)) as Hss. auto_derive; [csplit; lra|]. rewrite <- Hss at 4. set (q := sqrt t) in *. field. lra.
Qed.
Lemma rpower_52 t : 0 < t -> Rpower t (5.0/2.0) = t * t * sqrt t.
Proof.
  intro H. replace (5.0/2.0) with (1 + 1 + /2) by (dec; lra). rewrite !Rpower_plus, Rpower_1, Rpower_sqrt by lra. reflexivity.
Qed.
Lemma hp_d2v_dt f a0 t : 0 < t -> is_derive (hp_d2v f a0) t (hp_d3v f a0 t).
Proof.
  intro Ht. assert (E : 0 < t) by exact Ht.
  apply is_derive_near with (g := fun u => f*5.0*a0/(u * sqrt u)) (eps := mkposreal _ E).
  - intros u Hu. cbn in Hu. apply Rabs_def2 in Hu. unfold hp_d2v, pow. rewrite rpower_32' by lra. reflexivity.
  - unfold hp_d3v, pow. rewrite rpower_52 by assumption. dec. pose proof (sqrt_lt_R0 t Ht) as Hs.
    pose proof (sqrt_sqrt t (Rlt_le _ _ Ht)) as Hss. auto_derive; [csplit; try lra; apply Rgt_not_eq, Rmult_lt_0_compat; lra|].
    set (q := sqrt t) in *. rewrite <- Hss. field. lra.
Qed.
Lemma hp_KT_dt K t : is_derive (hp_KT K) t (hp_dKT K).
Proof. unfold hp_KT, hp_dKT. generalize tr. intro tr'. dec. auto_derive; [trivial|]. field. Qed.

(** ** the compression integral *)
Section VInt.
Context (K : R -> R) (dK t p : R) (HK : 0 < K t) (Hp : 0 < K t + 4 * p).
Context (D : is_derive K t dK).
Lemma base_pos : 0 < 1 + 4 * p / K t.
Proof. replace (1 + 4 * p / K t) with ((K t + 4 * p) / K t) by (field; lra). apply Rdiv_lt_0_compat; assumption. Qed.
Lemma vInt_dt : is_derive (fun u => hp_vInt (K u) p) t (hp_dvInt (K t) dK p).
Proof.
  pose proof base_pos as HB.
  assert (DB : is_derive (fun u => 1 + 4 * p / K u) t (- (4 * p * dK / (K t * K t)))).
  { auto_derive; [csplit; try exact I; solve [eexists; exact D|lra]|]. ader. field. lra. }
  unfold hp_vInt, hp_dvInt.
  apply is_derive_ext with (fun u => pow (1 + 4 * p / K u) (3/4) / 3 - 1 / 3).
  { intro u. dec. match goal with |- ?a = ?b => change (@eq R a b) end.
    replace (30 * / 10 / (40 * / 10)) with (3/4) by field. replace (10 * / 10 + 40 * / 10 * p / K u) with (1 + 4 * p / K u).
    field. unfold Rdiv. replace (40 * / 10) with 4 by field. lra. }
  pose proof (pow_derive (fun u => 1 + 4 * p / K u) t _ (3/4) HB DB) as DP. cbv beta in DP.
  set (P := fun u => pow (1 + 4 * p / K u) (3/4)) in *. change (pow (1 + 4 * p / K t) (3/4)) with (P t) in *.
  assert (E : P t = pow (1 + 4 * p / K t) (/4) ^ 3) by (unfold P; apply pow_q; [assumption|cbn; field]).
  apply is_derive_ext with (fun u => P u / 3 - 1/3); [reflexivity|].
  auto_derive; [csplit; try exact I; eexists; exact DP|]. ader. rewrite E.
  dec. replace (10 * / 10 + 40 * / 10 * p / K t) with (1 + 4 * p / K t) by (field; lra).
  rewrite (pow_q _ 1 (10 * / 10 / (40 * / 10)) HB) by (cbn; field).
  pose proof (pow_q4 _ HB) as E4. pose proof (pow_pos (1 + 4 * p / K t) (/4)) as HW.
  set (w := pow (1 + 4 * p / K t) (/ 4)) in *. clearbody w. rewrite E4 at 1.
  field. csplit; lra.
Qed.

(** normal forms over the fourth root *)
Lemma litpow (n : nat) (k x y : R) : 0 < x -> x = y -> k = INR n / 4 -> pow y k = pow x (/4) ^ n.
Proof. intros Hx <- ->. apply pow_q; [assumption|reflexivity]. Qed.
Lemma base_lit u : 10 * / 10 + 40 * / 10 * p / K u = 1 + 4 * p / K u.
Proof. unfold Rdiv. replace (40 * / 10) with 4 by field. lra. Qed.
Lemma W_derive : is_derive (fun u => pow (1 + 4 * p / K u) (/4)) t (- (p * dK / (K t * K t) / (pow (1 + 4 * p / K t) (/4)) ^ 3)).
Proof.
  pose proof base_pos as HB.
  assert (DB : is_derive (fun u => 1 + 4 * p / K u) t (- (4 * p * dK / (K t * K t)))).
  { auto_derive; [csplit; try exact I; solve [eexists; exact D|lra]|]. ader. field. lra. }
  eapply is_derive_eq; [exact (pow_derive (fun u => 1 + 4 * p / K u) t _ (/4) HB DB)|].
  pose proof (pow_q4 _ HB) as E4. pose proof (pow_pos (1 + 4 * p / K t) (/4)) as HW.
  cbv beta. set (w := pow (1 + 4 * p / K t) (/ 4)) in *. clearbody w. rewrite E4 at 1. field. csplit; lra.
Qed.
(** near t the base stays positive *)
Lemma base_near : locally t (fun u => 0 < 1 + 4 * p / K u).
Proof.
  pose proof base_pos as HB.
  assert (C : continuous (fun u => 1 + 4 * p / K u) t).
  { apply (ex_derive_continuous (fun u : R => 1 + 4 * p / K u)). auto_derive. csplit; try exact I; solve [eexists; exact D|lra]. }
  apply C. exists (mkposreal _ HB). intros y Hy. change (Rabs (y - (1 + 4 * p / K t)) < 1 + 4 * p / K t) in Hy. apply Rabs_def2 in Hy. lra.
Qed.
Lemma dvInt_dt : is_derive (fun u => hp_dvInt (K u) dK p) t (hp_d2vInt (K t) dK p).
Proof.
  pose proof base_pos as HB. pose proof W_derive as DW.
  set (W := fun u => pow (1 + 4 * p / K u) (/4)) in *. change (pow (1 + 4 * p / K t) (/4)) with (W t) in *.
  assert (HW : 0 < W t) by apply pow_pos.
  change (is_derive W t (- (p * dK / (K t * K t) / W t ^ 3))) in DW.
  apply is_derive_ext_loc with (fun u => - p * dK / K u / K u / W u).
  - generalize base_near. apply filter_imp. intros u Hu. unfold hp_dvInt. dec. rewrite base_lit.
    rewrite (pow_q _ 1 (10 * / 10 / (40 * / 10)) Hu) by (cbn; field). rewrite pow_1. reflexivity.
  - unfold hp_d2vInt. dec. rewrite base_lit.
    rewrite (pow_q _ 1 (10 * / 10 / (40 * / 10)) HB) by (cbn; field). rewrite (pow_q _ 5 (50 * / 10 / (40 * / 10)) HB) by (cbn; field).
    change (pow (1 + 4 * p / K t) (/4)) with (W t). clearbody W.
    auto_derive; [csplit; try exact I; solve [eexists; exact D|eexists; exact DW|lra|trivial]|]. ader. field. csplit; lra.
Qed.
Lemma d2vInt_dt : is_derive (fun u => hp_d2vInt (K u) dK p) t (hp_d3vInt (K t) dK p).
Proof.
  pose proof base_pos as HB. pose proof W_derive as DW.
  set (W := fun u => pow (1 + 4 * p / K u) (/4)) in *. change (pow (1 + 4 * p / K t) (/4)) with (W t) in *.
  assert (HW : 0 < W t) by apply pow_pos.
  change (is_derive W t (- (p * dK / (K t * K t) / W t ^ 3))) in DW.
  apply is_derive_ext_loc with (fun u => 2*p*dK*dK/K u/K u/K u/W u - p*p*dK*dK/K u/K u/K u/K u/W u^5).
  - generalize base_near. apply filter_imp. intros u Hu. unfold hp_d2vInt. dec. rewrite base_lit.
    rewrite (pow_q _ 1 (10 * / 10 / (40 * / 10)) Hu) by (cbn; field). rewrite (pow_q _ 5 (50 * / 10 / (40 * / 10)) Hu) by (cbn; field).
    rewrite pow_1. replace (20 * / 10) with 2 by field. reflexivity.
  - unfold hp_d3vInt. dec. rewrite base_lit.
    rewrite (pow_q _ 1 (10 * / 10 / (40 * / 10)) HB) by (cbn; field). rewrite (pow_q _ 5 (50 * / 10 / (40 * / 10)) HB) by (cbn; field).
    rewrite (pow_q _ 9 (90 * / 10 / (40 * / 10)) HB) by (cbn; field).
    change (pow (1 + 4 * p / K t) (/4)) with (W t). clearbody W.
    auto_derive; [csplit; try exact I; try solve [eexists; exact D|eexists; exact DW|lra|trivial]|].
    + apply Rgt_not_eq. apply (pow_lt (W t) 5 HW).
    + ader. field. csplit; lra.
Qed.
End VInt.

(** ** the integral *)
Definition hp_ok (K298 t p : R) : Prop := 0 < t /\ 0 < hp_KT K298 t /\ 0 < hp_KT K298 t + 4 * p.
Ltac refold N D := match type of D with is_derive _ ?x ?l => change (is_derive N x l) in D end.
Ltac prod_rule := dec; auto_derive; [csplit; try exact I; eexists; eassumption|]; ader; field.
Section Integral.
Context (f a0 K298 t p : R) (H : hp_ok K298 t p).
Lemma hp_I_dt : is_derive (fun t => hp_I f a0 K298 t p) t (hp_dI f a0 K298 t p).
Proof.
  destruct H as (Ht & HK & Hp). pose proof (hp_v_dt f a0 t Ht) as D1. pose proof (hp_KT_dt K298 t) as D2.
  pose proof (vInt_dt (hp_KT K298) _ t p HK Hp D2) as D3.
  unfold hp_I, hp_dI. revert D3. set (N := fun u => hp_vInt (hp_KT K298 u) p). change (hp_vInt (hp_KT K298 t) p) with (N t). intro D3. refold N D3.
  apply is_derive_ext with (fun u => hp_v f a0 u * hp_KT K298 u * N u); [reflexivity|]. clearbody N. prod_rule.
Qed.
Lemma hp_dI_dt : is_derive (fun t => hp_dI f a0 K298 t p) t (hp_d2I f a0 K298 t p).
Proof.
  destruct H as (Ht & HK & Hp). pose proof (hp_v_dt f a0 t Ht) as D1. pose proof (hp_KT_dt K298 t) as D2.
  pose proof (hp_dv_dt f a0 t Ht) as D1'.
  pose proof (vInt_dt (hp_KT K298) _ t p HK Hp D2) as D3. pose proof (dvInt_dt (hp_KT K298) _ t p HK Hp D2) as D4.
  unfold hp_dI, hp_d2I. revert D3 D4. set (N := fun u => hp_vInt (hp_KT K298 u) p). set (N1 := fun u => hp_dvInt (hp_KT K298 u) (hp_dKT K298) p).
  change (hp_vInt (hp_KT K298 t) p) with (N t). change (hp_dvInt (hp_KT K298 t) (hp_dKT K298) p) with (N1 t). intros D3 D4. refold N D3. refold N1 D4.
  apply is_derive_ext with (fun u => hp_dv f a0 u * hp_KT K298 u * N u + hp_v f a0 u * hp_dKT K298 * N u + hp_v f a0 u * hp_KT K298 u * N1 u); [reflexivity|].
  clearbody N N1. prod_rule.
Qed.
Lemma hp_d2I_dt : is_derive (fun t => hp_d2I f a0 K298 t p) t (hp_d3I f a0 K298 t p).
Proof.
  destruct H as (Ht & HK & Hp). pose proof (hp_v_dt f a0 t Ht) as D1. pose proof (hp_KT_dt K298 t) as D2.
  pose proof (hp_dv_dt f a0 t Ht) as D1'. pose proof (hp_d2v_dt f a0 t Ht) as D1''.
  pose proof (vInt_dt (hp_KT K298) _ t p HK Hp D2) as D3. pose proof (dvInt_dt (hp_KT K298) _ t p HK Hp D2) as D4.
  pose proof (d2vInt_dt (hp_KT K298) _ t p HK Hp D2) as D5.
  unfold hp_d2I, hp_d3I. revert D3 D4 D5. set (N := fun u => hp_vInt (hp_KT K298 u) p). set (N1 := fun u => hp_dvInt (hp_KT K298 u) (hp_dKT K298) p).
  set (N2 := fun u => hp_d2vInt (hp_KT K298 u) (hp_dKT K298) p).
  change (hp_vInt (hp_KT K298 t) p) with (N t). change (hp_dvInt (hp_KT K298 t) (hp_dKT K298) p) with (N1 t).
  change (hp_d2vInt (hp_KT K298 t) (hp_dKT K298) p) with (N2 t). intros D3 D4 D5. refold N D3. refold N1 D4. refold N2 D5.
  apply is_derive_ext with (fun u => hp_d2v f a0 u * hp_KT K298 u * N u + 2.0*hp_dv f a0 u * hp_dKT K298 * N u + 2.0*hp_dv f a0 u * hp_KT K298 u * N1 u
     + 2.0*hp_v f a0 u*hp_dKT K298*N1 u + hp_v f a0 u * hp_KT K298 u * N2 u); [reflexivity|].
  clearbody N N1 N2. prod_rule.
Qed.

Lemma inv_base : 1 - 4 * p / (hp_KT K298 t + 4 * p) = / (1 + 4 * p / hp_KT K298 t).
Proof. destruct H as (Ht & HK & Hp). field. csplit; lra. Qed.
Lemma hp_I_dp : is_derive (fun p => hp_I f a0 K298 t p) p (tV (hp_vol f a0 K298 t p)).
Proof.
  destruct H as (Ht & HK & Hp). unfold hp_I, hp_vInt, hp_vol. cbn [tV].
  set (K := hp_KT K298 t) in *. set (A := hp_v f a0 t).
  assert (HB : 0 < 1 + 4 * p / K) by exact (base_pos (fun _ => K) t p HK Hp).
  assert (DB : is_derive (fun v => 1 + 4 * v / K) p (4 / K)) by (auto_derive; [lra|field; lra]).
  pose proof (pow_derive (fun v => 1 + 4 * v / K) p _ (3/4) HB DB) as DP. cbv beta in DP.
  rewrite (pow_q _ 3 (3/4) HB) in DP by (cbn; field).
  apply is_derive_ext with (fun v => A * K * (pow (1 + 4 * v / K) (3/4) / 3 - 1 / 3)).
  { intro v. dec. match goal with |- ?a = ?b => change (@eq R a b) end.
    replace (30 * / 10 / (40 * / 10)) with (3/4) by field. replace (10 * / 10 + 40 * / 10 * v / K) with (1 + 4 * v / K).
    field. unfold Rdiv. replace (40 * / 10) with 4 by field. lra. }
  set (P := fun v => pow (1 + 4 * v / K) (3/4)) in *.
  apply is_derive_ext with (fun v => A * K * (P v / 3 - 1/3)); [reflexivity|].
  dec. replace (10 * / 10 - 40 * / 10 * p / (K + 40 * / 10 * p)) with (/ (1 + 4 * p / K)) by (field; csplit; lra).
  replace (10 * / 10 / (40 * / 10)) with (/4) by field.
  assert (EI : pow (/ (1 + 4 * p / K)) (/4) = / pow (1 + 4 * p / K) (/4)).
  { unfold pow, Rpower. rewrite ln_Rinv by assumption. rewrite <- exp_Ropp. f_equal. ring. }
  rewrite EI. auto_derive; [csplit; try exact I; eexists; exact DP|]. ader.
  pose proof (pow_q4 _ HB) as E4. pose proof (pow_pos (1 + 4 * p / K) (/4)) as HW. clearbody P.
  set (w := pow (1 + 4 * p / K) (/ 4)) in *. clearbody w. rewrite E4 at 1. field. csplit; lra.
Qed.

(** ** the volume and its derivatives *)
Lemma Z_derive_t : is_derive (fun u => pow (1 - 4 * p / (hp_KT K298 u + 4 * p)) (/4)) t
  (p * hp_dKT K298 / (hp_KT K298 t + 4 * p) / (hp_KT K298 t + 4 * p) / (pow (1 - 4 * p / (hp_KT K298 t + 4 * p)) (/4)) ^ 3).
Proof.
  destruct H as (Ht & HK & Hp). pose proof (hp_KT_dt K298 t) as D2.
  assert (HB : 0 < 1 - 4 * p / (hp_KT K298 t + 4 * p)).
  { rewrite inv_base. apply Rinv_0_lt_compat. exact (base_pos (hp_KT K298) t p HK Hp). }
  assert (DB : is_derive (fun u => 1 - 4 * p / (hp_KT K298 u + 4 * p)) t (4 * p * hp_dKT K298 / (hp_KT K298 t + 4 * p) / (hp_KT K298 t + 4 * p))).
  { auto_derive; [csplit; try exact I; solve [eexists; exact D2|lra]|]. ader. field. lra. }
  eapply is_derive_eq; [exact (pow_derive (fun u => 1 - 4 * p / (hp_KT K298 u + 4 * p)) t _ (/4) HB DB)|].
  pose proof (pow_q4 _ HB) as E4. pose proof (pow_pos (1 - 4 * p / (hp_KT K298 t + 4 * p)) (/4)) as HW. cbv beta.
  set (w := pow (1 - 4 * p / (hp_KT K298 t + 4 * p)) (/4)) in *. clearbody w. rewrite E4. field. csplit; lra.
Qed.
Lemma Z_derive_p : is_derive (fun v => pow (1 - 4 * v / (hp_KT K298 t + 4 * v)) (/4)) p
  (- (hp_KT K298 t / (hp_KT K298 t + 4 * p) / (hp_KT K298 t + 4 * p) / (pow (1 - 4 * p / (hp_KT K298 t + 4 * p)) (/4)) ^ 3)).
Proof.
  destruct H as (Ht & HK & Hp).
  assert (HB : 0 < 1 - 4 * p / (hp_KT K298 t + 4 * p)).
  { rewrite inv_base. apply Rinv_0_lt_compat. exact (base_pos (hp_KT K298) t p HK Hp). }
  assert (DB : is_derive (fun v => 1 - 4 * v / (hp_KT K298 t + 4 * v)) p (- (4 * hp_KT K298 t / (hp_KT K298 t + 4 * p) / (hp_KT K298 t + 4 * p)))).
  { auto_derive; [lra|]. field. lra. }
  eapply is_derive_eq; [exact (pow_derive (fun v => 1 - 4 * v / (hp_KT K298 t + 4 * v)) p _ (/4) HB DB)|].
  pose proof (pow_q4 _ HB) as E4. pose proof (pow_pos (1 - 4 * p / (hp_KT K298 t + 4 * p)) (/4)) as HW. cbv beta.
  set (w := pow (1 - 4 * p / (hp_KT K298 t + 4 * p)) (/4)) in *. clearbody w. rewrite E4. field. csplit; lra.
Qed.
End Integral.

(** normal form of hp_vol over the fourth root Z *)
Definition volN (A A1 A2 K dK Z p : R) : thermo :=
  let D := K + 4*p in
  mkThermo 0 0 0 0 0 (A*Z) (A1*Z + A*(p/D/D)*dK/Z^3) (- (A*K/D/D/Z^3))
    (A2*Z + 2*A1*(p/D/D)*dK/Z^3 - 3*A*(p*dK/D/D)^2/Z^7 - 2*A*(p/D/D/D)*dK*dK/Z^3)
    (- (A1*K/D/D/Z^3) + 3*A*K*p*dK/D/D/D/D/Z^7 + A*(1/D/D - 8*p/D/D/D)*dK/Z^3)
    (- (3*A*K*K/D/D/D/D/Z^7) + 8*A*K/D/D/D/Z^3).
Lemma hp_vol_N f a0 K298 t p : hp_ok K298 t p ->
  hp_vol f a0 K298 t p = volN (hp_v f a0 t) (hp_dv f a0 t) (hp_d2v f a0 t) (hp_KT K298 t) (hp_dKT K298)
      (pow (1 - 4 * p / (hp_KT K298 t + 4 * p)) (/4)) p.
Proof.
  intro H. pose proof (inv_base K298 t p H) as IB. destruct H as (Ht & HK & Hp).
  assert (HB : 0 < 1 - 4 * p / (hp_KT K298 t + 4 * p)).
  { rewrite IB. apply Rinv_0_lt_compat. exact (base_pos (hp_KT K298) t p HK Hp). }
  unfold hp_vol, volN. generalize dependent (hp_KT K298 t). intros K IB HK Hp HB.
  generalize (hp_v f a0 t) (hp_dv f a0 t) (hp_d2v f a0 t) (hp_dKT K298). intros A A1 A2 dK. dec.
  replace (10 * / 10 - 40 * / 10 * p / (K + 40 * / 10 * p)) with (1 - 4 * p / (K + 4 * p)) by (field; csplit; lra).
  rewrite (pow_q _ 1 (10 * / 10 / (40 * / 10)) HB) by (cbn; field).
  rewrite (pow_q _ 3 (30 * / 10 / (40 * / 10)) HB) by (cbn; field).
  rewrite (pow_q _ 7 (70 * / 10 / (40 * / 10)) HB) by (cbn; field).
  pose proof (pow_pos (1 - 4 * p / (K + 4 * p)) (/4)) as HW. set (w := pow (1 - 4 * p / (K + 4 * p)) (/ 4)) in *. clearbody w. clear IB HB.
  f_equal; field; csplit; lra.
Qed.

Lemma hp_ok_near_t K298 t p : hp_ok K298 t p -> locally t (fun u => hp_ok K298 u p).
Proof.
  intros (Ht & HK & Hp).
  assert (C : forall q, 0 < hp_KT K298 t + q -> locally t (fun u => 0 < hp_KT K298 u + q)).
  { intros q Hq. assert (C : continuous (fun u => hp_KT K298 u + q) t).
    { apply (ex_derive_continuous (fun u : R => hp_KT K298 u + q)). auto_derive. csplit; try exact I. eexists; apply hp_KT_dt. }
    apply C. exists (mkposreal _ Hq). intros y Hy. change (Rabs (y - (hp_KT K298 t + q)) < hp_KT K298 t + q) in Hy. apply Rabs_def2 in Hy. lra. }
  assert (A : locally t (fun u => 0 < u)).
  { exists (mkposreal _ Ht). intros y Hy. change (Rabs (y - t) < t) in Hy. apply Rabs_def2 in Hy. lra. }
  assert (B0 : 0 < hp_KT K298 t + 0) by lra.
  generalize (filter_and _ _ A (filter_and _ _ (C 0 B0) (C (4*p) Hp))). apply filter_imp. intros u (U1 & U2 & U3).
  unfold hp_ok. csplit; lra.
Qed.
Lemma hp_ok_near_p K298 t p : hp_ok K298 t p -> locally p (fun v => hp_ok K298 t v).
Proof.
  intros (Ht & HK & Hp). assert (E : 0 < (hp_KT K298 t + 4 * p) / 4) by lra.
  exists (mkposreal _ E). intros v Hv. change (Rabs (v - p) < (hp_KT K298 t + 4 * p) / 4) in Hv. apply Rabs_def2 in Hv.
  unfold hp_ok. csplit; lra.
Qed.

(** derivatives of the normal form when its arguments move *)
Section VolN.
Context (A A1 A2 K Z : R -> R) (dK t p : R).
Context (HD : K t + 4 * p <> 0) (HZ : Z t <> 0).
Context (DA : is_derive A t (A1 t)) (DA1 : is_derive A1 t (A2 t)) (DK : is_derive K t dK).
Context (DZ : is_derive Z t (p * dK / (K t + 4*p) / (K t + 4*p) / Z t ^ 3)).
Ltac go := cbn [tV tVt tVp tVtt tVtp tVpp volN]; auto_derive; [csplit; try exact I;
   try solve [eexists; eassumption | assumption | repeat (apply Rmult_integral_contrapositive_currified; [assumption|]); try lra; assumption]|]; ader; field; csplit; assumption.
Lemma volN_V_t : is_derive (fun u => tV (volN (A u) (A1 u) (A2 u) (K u) dK (Z u) p)) t (tVt (volN (A t) (A1 t) (A2 t) (K t) dK (Z t) p)).
Proof. go. Qed.
Lemma volN_Vt_t : is_derive (fun u => tVt (volN (A u) (A1 u) (A2 u) (K u) dK (Z u) p)) t (tVtt (volN (A t) (A1 t) (A2 t) (K t) dK (Z t) p)).
Proof. go. Qed.
Lemma volN_Vp_t : is_derive (fun u => tVp (volN (A u) (A1 u) (A2 u) (K u) dK (Z u) p)) t (tVtp (volN (A t) (A1 t) (A2 t) (K t) dK (Z t) p)).
Proof. go. Qed.
End VolN.
Section VolNp.
Context (A A1 A2 K dK : R) (Z : R -> R) (p : R).
Context (HD : K + 4 * p <> 0) (HZ : Z p <> 0).
Context (DZ : is_derive Z p (- (K / (K + 4*p) / (K + 4*p) / Z p ^ 3))).
Ltac go := cbn [tV tVt tVp tVtt tVtp tVpp volN]; auto_derive; [csplit; try exact I;
   try solve [eexists; eassumption | assumption | repeat (apply Rmult_integral_contrapositive_currified; [assumption|]); try lra; assumption]|]; ader; field; csplit; assumption.
Lemma volN_V_p : is_derive (fun v => tV (volN A A1 A2 K dK (Z v) v)) p (tVp (volN A A1 A2 K dK (Z p) p)).
Proof. go. Qed.
Lemma volN_Vt_p : is_derive (fun v => tVt (volN A A1 A2 K dK (Z v) v)) p (tVtp (volN A A1 A2 K dK (Z p) p)).
Proof. go. Qed.
Lemma volN_Vp_p : is_derive (fun v => tVp (volN A A1 A2 K dK (Z v) v)) p (tVpp (volN A A1 A2 K dK (Z p) p)).
Proof. go. Qed.
End VolNp.
