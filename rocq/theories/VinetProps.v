(** C159: the compression of the shipped solids with the Vinet equation of state. *)
From Coq Require Import Reals Lra Lia.
From Verif Require Import RealTac EosSpec EosModel EosProofs EosVinet EosProps VinetNewton VinetSolve.
Local Open Scope R_scope.
Lemma lip_continuous (g : R -> R) (u C : R) (e0 : posreal) : 0 <= C -> (forall w, Rabs (w - u) < e0 -> Rabs (g w - g u) <= C * Rabs (w - u)) -> continuous g u.
Proof.
  intros HC L. apply filterlim_locally. intro eps. assert (P : 0 < Rmin e0 (eps / (C + 1))).
  { apply Rmin_pos; [apply cond_pos|]. apply Rdiv_lt_0_compat; [apply cond_pos|lra]. }
  exists (mkposreal _ P). intros w Hw. change (Rabs (w - u) < Rmin e0 (eps / (C + 1))) in Hw. change (Rabs (g w - g u) < eps).
  assert (W1 := Rlt_le_trans _ _ _ Hw (Rmin_l _ _)). assert (W2 := Rlt_le_trans _ _ _ Hw (Rmin_r _ _)).
  apply Rle_lt_trans with (1 := L w W1). assert (Rabs (w - u) * (C + 1) < eps).
  { apply Rmult_lt_compat_r with (r := C + 1) in W2; [|lra]. unfold Rdiv in W2. rewrite Rmult_assoc, Rinv_l, Rmult_1_r in W2 by lra. exact W2. }
  generalize (Rabs_pos (w - u)). intro. nra.
Qed.
Section Range.
Variables (c : eosVinet) (V : vrange).
Hypothesis H : vchecked c V.
Notation lo := (v_lo V). Notation hi := (v_hi V). Notation a := (v_a V). Notation b := (v_b V).
(** the compression *)
Definition compression (t p : R) : R :=
  match Rle_dec lo (vlin c t p), Rle_dec (vlin c t p) hi with
  | left A, left B => theRoot c V H t p (conj A B)
  | _, _ => 1
  end.
Lemma compression_in t p (Hl : lo <= vlin c t p <= hi) : exists Hl', compression t p = theRoot c V H t p Hl'.
Proof.
  unfold compression. destruct (Rle_dec lo (vlin c t p)) as [A|A]; [|lra]. destruct (Rle_dec (vlin c t p) hi) as [B|B]; [|lra]. exists (conj A B). reflexivity.
Qed.
Lemma compression_root t p : lo <= vlin c t p <= hi -> a <= compression t p <= b /\ vinet_fn c t p (compression t p) = 0 /\ 0 < compression t p /\ vinet_nondeg c (compression t p).
Proof. intro Hl. destruct (compression_in t p Hl) as [Hl' E]. rewrite E. destruct (theRoot_ok c V H t p Hl'). destruct (root_nondeg c V H t p Hl'). tauto. Qed.
Lemma compression_only t p x : lo <= vlin c t p <= hi -> a <= x <= b -> vinet_fn c t p x = 0 -> x = compression t p.
Proof. intros Hl Hx E. destruct (compression_in t p Hl) as [Hl' E']. rewrite E'. apply only; assumption. Qed.
Lemma compression_close t p : lo <= vlin c t p <= hi ->
  Rabs (fst (vinet_solve c t p) - compression t p) <= vL c V / vm c V ^ 3 * dbl_epsilon /\ snd (vinet_solve c t p) ^ 2 <= dbl_epsilon.
Proof. intro Hl. destruct (compression_in t p Hl) as [Hl' E']. rewrite E'. apply solve_close. Qed.
Lemma compression_lip t p t' p' : lo <= vlin c t p <= hi -> lo <= vlin c t' p' <= hi ->
  vm c V * Rabs (compression t' p' - compression t p) <= b * b * Rabs (vlin c t' p' - vlin c t p).
Proof.
  intros H1 H2. destruct (compression_root t p H1) as (A1 & A2 & A3 & _). destruct (compression_root t' p' H2) as (B1 & B2 & B3 & _).
  set (x := compression t p) in *. set (x' := compression t' p') in *.
  destruct (chord (vinet_fn c t p) (vinet_dfn c t p) a b x (fun y _ => vinet_dfn_ok c t p y) A1 A2 x' B1) as (xi & X1 & X2).
  assert (E : vinet_fn c t p x' = x' * x' * (vlin c t p - vlin c t' p')).
  { rewrite fn_l in B2. rewrite fn_l. lra. }
  rewrite E in X2. assert (D0 : vm c V <= vinet_dfn c t p xi).
  { apply (d_lo (vinet_dfn c t p) a b (vm c V) (Mon c V H t p H1) (mb c V H t p H1)). lra. }
  assert (m0 := k_m c V H). apply Rle_trans with (vinet_dfn c t p xi * Rabs (x' - x)); [apply Rmult_le_compat_r; [apply Rabs_pos|exact D0]|].
  rewrite <- (Rabs_pos_eq (vinet_dfn c t p xi)) by lra. rewrite <- Rabs_mult, <- X2, Rabs_mult, (Rabs_minus_sym (vlin c t p)). apply Rmult_le_compat_r; [apply Rabs_pos|].
  assert (A := k_a c V H). rewrite Rabs_pos_eq by nra. nra.
Qed.
Lemma vlin_u u t p : vlin c u p - vlin c t p = - (valpha c * vK c) * (u - t). Proof. unfold vlin. ring. Qed.
Lemma vlin_v v t p : vlin c t v - vlin c t p = / 10000 * (v - p). Proof. unfold vlin. field. Qed.
Lemma near_range t p : lo < vlin c t p < hi -> exists eps : posreal, forall u v, Rabs (u - t) < eps -> Rabs (v - p) < eps -> lo < vlin c u v < hi.
Proof.
  intros Hl. set (C := Rabs (valpha c * vK c) + 1). assert (CP : 0 < C) by (unfold C; generalize (Rabs_pos (valpha c * vK c)); lra).
  set (g := Rmin (vlin c t p - lo) (hi - vlin c t p)). assert (G : 0 < g) by (apply Rmin_pos; lra).
  assert (P : 0 < g / (2 * C)) by (apply Rdiv_lt_0_compat; lra). exists (mkposreal _ P). cbn [pos]. intros u v Hu Hv.
  assert (K : Rabs (vlin c u v - vlin c t p) < g).
  { replace (vlin c u v - vlin c t p) with ((vlin c u v - vlin c t v) + (vlin c t v - vlin c t p)) by ring. rewrite vlin_u, vlin_v.
    apply Rle_lt_trans with (1 := Rabs_triang _ _). rewrite !Rabs_mult, Rabs_Ropp. rewrite (Rabs_pos_eq (/ 10000)) by lra.
    set (q := g / (2 * C)) in *. assert (E : C * q * 2 = g) by (unfold q; field; lra).
    assert (Rabs (valpha c * vK c) * Rabs (u - t) <= C * Rabs (u - t)) by (apply Rmult_le_compat_r; [apply Rabs_pos|unfold C; lra]).
    assert (C * Rabs (u - t) < C * q) by (apply Rmult_lt_compat_l; assumption).
    assert (/ 10000 * Rabs (v - p) <= C * Rabs (v - p)) by (apply Rmult_le_compat_r; [apply Rabs_pos|unfold C; generalize (Rabs_pos (valpha c * vK c)); lra]).
    assert (C * Rabs (v - p) < C * q) by (apply Rmult_lt_compat_l; assumption). lra. }
  apply Rabs_def2 in K. unfold g in K. generalize (Rmin_l (vlin c t p - lo) (hi - vlin c t p)) (Rmin_r (vlin c t p - lo) (hi - vlin c t p)). lra.
Qed.
Lemma compression_continuous t p : lo < vlin c t p < hi -> continuous (fun u => compression u p) t /\ continuous (fun v => compression t v) p.
Proof.
  intro Hl. destruct (near_range t p Hl) as (eps & E). assert (m0 := k_m c V H). assert (BB : 0 <= b * b / vm c V) by (apply Rdiv_le_0_compat; [apply Rle_0_sqr|exact m0]).
  split.
  - apply lip_continuous with (C := b * b / vm c V * Rabs (valpha c * vK c)) (e0 := eps); [apply Rmult_le_pos; [exact BB|apply Rabs_pos]|].
    intros w Hw. assert (L := compression_lip t p w p ltac:(lra)). assert (R := E w p Hw ltac:(rewrite Rminus_eq_0, Rabs_R0; apply cond_pos)).
    specialize (L ltac:(lra)). rewrite vlin_u, Rabs_mult, Rabs_Ropp in L. apply Rmult_le_reg_l with (vm c V); [exact m0|]. apply Rle_trans with (1 := L). right. field. lra.
  - apply lip_continuous with (C := b * b / vm c V * / 10000) (e0 := eps); [apply Rmult_le_pos; [exact BB|lra]|].
    intros w Hw. assert (L := compression_lip t p t w ltac:(lra)). assert (R := E t w ltac:(rewrite Rminus_eq_0, Rabs_R0; apply cond_pos) Hw).
    specialize (L ltac:(lra)). rewrite vlin_v, Rabs_mult, (Rabs_pos_eq (/ 10000)) in L by lra. apply Rmult_le_reg_l with (vm c V); [exact m0|]. apply Rle_trans with (1 := L). right. field. lra.
Qed.
Lemma compression_branch t p : lo < vlin c t p < hi -> vinet_branch c compression t p.
Proof.
  intro Hl. destruct (near_range t p Hl) as (eps & E). exists eps. intros u v Hu Hv. assert (R := E u v Hu Hv).
  destruct (compression_root u v) as (_ & R2 & R3 & R4); [lra|]. destruct (compression_continuous u v R). csplit; assumption.
Qed.
Lemma compression_branch0 t : lo < vlin c t pr < hi -> vinet_branch0 c (fun u => compression u pr) t.
Proof.
  intro Hl. destruct (near_range t pr Hl) as (eps & E). exists eps. intros u Hu. assert (R := E u pr Hu ltac:(rewrite Rminus_eq_0, Rabs_R0; apply cond_pos)).
  destruct (compression_root u pr) as (_ & R2 & R3 & R4); [lra|]. destruct (compression_continuous u pr R). csplit; assumption.
Qed.
End Range.
(** the solids that the tables ship with this equation of state: includes/sol_struct_data.h 936 (fayalite), 2343 (diamond), 2353 (graphite)
    and gibbs.c 2620, 2650 (nepheline); the reference volume is an argument *)
Definition fayalite v0 := mkEosVinet v0 0.000029447 127.955797 5.016956.
Definition diamond v0 := mkEosVinet v0 0.00002243 444.0 1.9.
Definition graphite v0 := mkEosVinet v0 0.0000346 33.8 8.9.
Definition nepheline v0 := mkEosVinet v0 0.000031802 48.7805 1.4747.
Definition fayR := mkRange (-10.2) 5.01 0.985 1.05.
Definition diaR := mkRange (-27) 5.01 0.99 1.03.
Definition graR := mkRange (-2) 5.01 0.954 1.036.
Definition nepR := mkRange (-4.2) 5.01 0.965 1.035.
Ltac numbers := constructor; unfold vm, vM, veb, vea, vwa, vwb, vinet_eta; cbn [v_lo v_hi v_a v_b vK vKp fayalite diamond graphite nepheline fayR diaR graR nepR]; dec; lra.
Lemma fayC v0 : vchecked (fayalite v0) fayR. Proof. unfold fayalite, fayR. numbers. Qed.
Lemma diaC v0 : vchecked (diamond v0) diaR. Proof. unfold diamond, diaR. numbers. Qed.
Lemma graC v0 : vchecked (graphite v0) graR. Proof. unfold graphite, graR. numbers. Qed.
Lemma nepC v0 : vchecked (nepheline v0) nepR. Proof. unfold nepheline, nepR. numbers. Qed.
(** the temperature up to which the equation of each is solved: the 3000 K at which the program stops, except for graphite *)
Inductive vinet_solid : eosVinet -> R -> Prop :=
  | S_fayalite v0 : vinet_solid (fayalite v0) 3000
  | S_diamond v0 : vinet_solid (diamond v0) 3000
  | S_graphite v0 : vinet_solid (graphite v0) 2000
  | S_nepheline v0 : vinet_solid (nepheline v0) 3000.
Lemma ranged c Tm : vinet_solid c Tm -> exists V, vchecked c V /\ 9 / 10 <= v_a V /\ v_b V <= 11 / 10 /\ vL c V / vm c V ^ 3 * dbl_epsilon <= / 10 ^ 16 /\
  forall t p, 298.15 <= t <= Tm -> 0 <= p <= 50000 -> v_lo V < vlin c t p < v_hi V.
Proof.
  intros [v0|v0|v0|v0].
  - exists fayR. split; [apply fayC|]. split; [unfold fayR; cbn [v_a]; dec; lra|]. split; [unfold fayR; cbn [v_b]; dec; lra|]. split.
    + unfold vL, vm, veb, vea, vwa, vwb, vinet_eta, fayR, fayalite, dbl_epsilon. cbn [v_lo v_hi v_a v_b vK vKp pow]. dec. lra.
    + intros t p Ht Hp. unfold vlin, fayR, fayalite, tr. cbn [v_lo v_hi v_a v_b vK vKp valpha]. dec. lra.
  - exists diaR. split; [apply diaC|]. split; [unfold diaR; cbn [v_a]; dec; lra|]. split; [unfold diaR; cbn [v_b]; dec; lra|]. split.
    + unfold vL, vm, veb, vea, vwa, vwb, vinet_eta, diaR, diamond, dbl_epsilon. cbn [v_lo v_hi v_a v_b vK vKp pow]. dec. lra.
    + intros t p Ht Hp. unfold vlin, diaR, diamond, tr. cbn [v_lo v_hi v_a v_b vK vKp valpha]. dec. lra.
  - exists graR. split; [apply graC|]. split; [unfold graR; cbn [v_a]; dec; lra|]. split; [unfold graR; cbn [v_b]; dec; lra|]. split.
    + unfold vL, vm, veb, vea, vwa, vwb, vinet_eta, graR, graphite, dbl_epsilon. cbn [v_lo v_hi v_a v_b vK vKp pow]. dec. lra.
    + intros t p Ht Hp. unfold vlin, graR, graphite, tr. cbn [v_lo v_hi v_a v_b vK vKp valpha]. dec. lra.
  - exists nepR. split; [apply nepC|]. split; [unfold nepR; cbn [v_a]; dec; lra|]. split; [unfold nepR; cbn [v_b]; dec; lra|]. split.
    + unfold vL, vm, veb, vea, vwa, vwb, vinet_eta, nepR, nepheline, dbl_epsilon. cbn [v_lo v_hi v_a v_b vK vKp pow]. dec. lra.
    + intros t p Ht Hp. unfold vlin, nepR, nepheline, tr. cbn [v_lo v_hi v_a v_b vK vKp valpha]. dec. lra.
Qed.
(** C159. For each of these solids there is a function X of temperature and pressure that solves the equation of state exactly, lies within ten
    per cent of 1 and gives thermodynamically consistent properties, and the compression that the loop computes is within 1e-16 of it, the loop
    having ended by its residual test, over the whole range of temperature and pressure. *)
Theorem C159_compression : forall c Tmax, vinet_solid c Tmax -> exists X : R -> R -> R,
  forall t p, 298.15 <= t <= Tmax -> 0 <= p <= 50000 ->
    vinet_fn c t p (X t p) = 0 /\ 9 / 10 <= X t p <= 11 / 10 /\
    Rabs (fst (vinet_solve c t p) - X t p) <= / 10 ^ 16 /\ snd (vinet_solve c t p) ^ 2 <= dbl_epsilon /\
    (forall h0 s0 m, smooth_at m t -> thermo_consistent (solid_vinet h0 s0 m c X (fun u => X u pr)) t p).
Proof.
  intros c Tm S. destruct (ranged c Tm S) as (V & C & A1 & A2 & A3 & A4). exists (compression c V C). intros t p Ht Hp.
  assert (R := A4 t p Ht Hp). assert (R0 : v_lo V < vlin c t pr < v_hi V) by (apply A4; [exact Ht|unfold pr; dec; lra]).
  destruct (compression_root c V C t p) as (B1 & B2 & B3 & B4); [lra|]. destruct (compression_close c V C t p) as (E1 & E2); [lra|].
  split; [exact B2|]. split; [lra|]. split; [apply Rle_trans with (1 := E1); exact A3|]. split; [exact E2|].
  intros h0 s0 m Sm. apply C10_solid_vinet_consistent; [|assert (K := k_eta c V C); lra| |exact Sm|apply compression_branch; exact R|apply compression_branch0; exact R0].
  - assert (K := k_K c V C). lra.
  - assert (H298 : 0 < 298.15) by (dec; lra). lra.
Qed.
Print Assumptions C159_compression.
(** volume: relative error of the volume reported, against the exact one *)
Theorem C159_volume : forall c Tmax, vinet_solid c Tmax -> exists X : R -> R -> R,
  forall t p, 298.15 <= t <= Tmax -> 0 <= p <= 50000 -> vinet_fn c t p (X t p) = 0 /\
    forall x0, Rabs (tV (vinet_eos c (fst (vinet_solve c t p)) x0 t p) - vv0 c * X t p ^ 3) <= Rabs (vv0 c) * (4 / 10 ^ 16).
Proof.
  intros c Tm S. destruct (C159_compression c Tm S) as [X HX]. exists X. intros t p Ht Hp. destruct (HX t p Ht Hp) as (E & B & C & _). split; [exact E|].
  intro x0. unfold vinet_eos. cbv zeta. cbn [tV]. generalize dependent (fst (vinet_solve c t p)). generalize dependent (X t p). intros y E B x C.
  replace (vv0 c * x * x * x - vv0 c * y ^ 3) with (vv0 c * ((x - y) * (x * x + x * y + y * y))) by ring. rewrite Rabs_mult. apply Rmult_le_compat_l; [apply Rabs_pos|].
  assert (C' := C). apply Rabs_le_between in C'. assert (P10 : / 10 ^ 16 <= / 1000) by (cbn [pow]; lra). assert (P0 : 0 < / 10 ^ 16) by (cbn [pow]; lra). rewrite Rabs_mult.
  assert (X2 : 0 <= x <= 1102 / 1000) by lra. assert (M1 : 0 <= x * x <= 1102 / 1000 * (1102 / 1000)) by (split; [apply Rmult_le_pos|apply Rmult_le_compat]; lra).
  assert (M2 : 0 <= x * y <= 1102 / 1000 * (11 / 10)) by (split; [apply Rmult_le_pos|apply Rmult_le_compat]; lra).
  assert (M3 : 0 <= y * y <= 11 / 10 * (11 / 10)) by (split; [apply Rmult_le_pos|apply Rmult_le_compat]; lra).
  assert (Y : 0 <= x * x + x * y + y * y <= 4) by (split; lra). rewrite (Rabs_pos_eq (x * x + x * y + y * y)) by apply Y.
  replace (4 / 10 ^ 16) with (/ 10 ^ 16 * 4) by (unfold Rdiv; ring). apply Rmult_le_compat; [apply Rabs_pos|apply Y|exact C|apply Y].
Qed.
(** C160 is false: at 3000 K and 1 bar the equation has no positive solution for graphite *)
Theorem C160_refuted : forall v0, (forall x, 0 < x -> vinet_fn (graphite v0) 3000 1 x <> 0).
Proof.
  intros v0 x Hx E. rewrite fn_l in E. unfold vlin, vinet_eta, graphite, tr in E. cbn [vK vKp valpha] in E.
  set (y := x - 1). assert (U : 3.0 * (8.9 - 1.0) / 2.0 * (1 - x) = - (1185 / 100 * y)) by (unfold y; dec; field). rewrite U in E. replace (1 - x) with (- y) in E by (unfold y; ring).
  assert (XY : x = 1 + y) by (unfold y; ring). rewrite XY in *. clearbody y. clear XY x U. dec.
  assert (P := exp_pos (- (1185 / 100 * y))). destruct (Rle_dec y 0) as [N|N].
  - assert (0 <= - y * exp (- (1185 / 100 * y))) by (apply Rmult_le_pos; lra). nra.
  - assert (Q : exp (- (1185 / 100 * y)) * (1 + 237 / 80 * y) ^ 4 <= 1).
    { rewrite exp_Ropp. apply Rmult_le_reg_l with (exp (1185 / 100 * y)); [apply exp_pos|]. rewrite <- Rmult_assoc, Rinv_r, Rmult_1_l, Rmult_1_r by (apply Rgt_not_eq, exp_pos).
      replace (1185 / 100 * y) with (237 / 80 * y + (237 / 80 * y + (237 / 80 * y + 237 / 80 * y))) by field. rewrite !exp_plus.
      assert (Z := exp_ineq1_le (237 / 80 * y)). cbn [pow]. rewrite Rmult_1_r. assert (0 <= 1 + 237 / 80 * y) by lra.
      repeat (apply Rmult_le_compat; [assumption|repeat apply Rmult_le_pos; assumption|exact Z|]). exact Z. }
    set (e := exp (- (1185 / 100 * y))) in *.
    assert (PQ : (1 + y) ^ 2 * (1 + 237 / 80 * y) ^ 4 = (y - 17 / 200) ^ 2 * (1611270664218805841 / 13107200000000000 * y ^ 0 + 23294454582178893 / 81920000000000 * y ^ 1 + 627872187135987 / 1638400000000 * y ^ 2 + 1110611269737 / 4096000000 * y ^ 3 + 3154956561 / 40960000 * y ^ 4) + 214261171710099096331 / 6553600000000000000 * (y - 17 / 200) + 7578033728347194835009 / 2621440000000000000000) by field.
    assert (QP : 0 <= (y - 17 / 200) ^ 2 * (1611270664218805841 / 13107200000000000 * y ^ 0 + 23294454582178893 / 81920000000000 * y ^ 1 + 627872187135987 / 1638400000000 * y ^ 2 + 1110611269737 / 4096000000 * y ^ 3 + 3154956561 / 40960000 * y ^ 4)).
    { apply Rmult_le_pos; [apply pow2_ge_0|]. repeat apply Rplus_le_le_0_compat; apply Rmult_le_pos; try (apply pow_le; lra); lra. }
    assert (G : 321 / 10 * y < (1 + y) ^ 2 * (1 + 237 / 80 * y) ^ 4) by lra. clear PQ QP.
    assert (F : (1 + y) ^ 2 <= 321 / 10 * (y * e)).
    { assert (YE : 0 <= y * e) by (apply Rmult_le_pos; lra). replace ((1 + y) ^ 2) with ((1 + y) * (1 + y)) by ring. clear G Q.
      set (Y := y * e) in *. set (W := (1 + y) * (1 + y)) in *. assert (E' : W * (1 / 10000 - 346 / 10000000 * (338 / 10) * (3000 - 29815 / 100)) + 3 * (338 / 10) * Y = 0).
      { rewrite <- E. unfold Y. field. }
      clear E. lra. }
    assert (Z : 0 <= (1 + 237 / 80 * y) ^ 4) by (apply pow_le; lra).
    assert (G2 : (1 + y) ^ 2 * (1 + 237 / 80 * y) ^ 4 <= 321 / 10 * (y * e) * (1 + 237 / 80 * y) ^ 4) by (apply Rmult_le_compat_r; assumption).
    assert (G3 : y * (e * (1 + 237 / 80 * y) ^ 4) <= y * 1) by (apply Rmult_le_compat_l; lra).
    set (P4 := (1 + 237 / 80 * y) ^ 4) in *. rewrite Rmult_1_r in G3. rewrite <- Rmult_assoc in G3. rewrite (Rmult_assoc (321 / 10)) in G2. lra.
Qed.
