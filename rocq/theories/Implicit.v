(** Implicitly defined functions: a continuous solution of phi(x(s)) = l(s) is differentiable. No model content. *)
From Coq Require Import Reals Lra Rlimit Rderiv Ranalysis1 Ranalysis5.
From Verif Require Import RealTac.
Local Open Scope R_scope.

Lemma is_derive_quot_lim (f : R -> R) x l :
  is_derive f x l <-> filterlim (fun y => (f y - f x) / (y - x)) (locally' x) (locally l).
Proof.
  rewrite is_derive_Reals. split.
  - intros H P [eps HP]. destruct (H eps (cond_pos eps)) as [d Hd].
    exists d. intros y Hy Hne. apply HP. change (Rabs ((f y - f x) / (y - x) - l) < eps).
    specialize (Hd (y - x)). rewrite Rplus_minus in Hd. apply Hd; [|exact Hy]. intro E; apply Hne; exact (Rminus_diag_uniq _ _ E).
  - intros H eps Heps.
    destruct (H (fun z => Rabs (z - l) < eps)) as [d Hd].
    { exists (mkposreal eps Heps). intros z Hz. exact Hz. }
    exists d. intros h Hh Hd'. specialize (Hd (x + h)).
    cbv beta in Hd. replace (x + h - x) with h in Hd by ring. apply Hd; [|lra].
    change (Rabs (x + h - x) < d). replace (x + h - x) with h by ring. exact Hd'.
Qed.

Lemma implicit_derive (phi l x : R -> R) (s0 dphi dl : R) :
  continuous x s0 ->
  is_derive phi (x s0) dphi -> dphi <> 0 ->
  is_derive l s0 dl ->
  locally s0 (fun s => phi (x s) = l s) ->
  is_derive x s0 (dl / dphi).
Proof.
  intros Hc Hphi Hne Hl Hloc.
  apply is_derive_quot_lim.
  pose proof (proj1 (is_derive_quot_lim _ _ _) Hphi) as Qphi.
  pose proof (proj1 (is_derive_quot_lim _ _ _) Hl) as Ql.
  set (h := fun y => if Req_EM_T y (x s0) then dphi else (phi y - phi (x s0)) / (y - x s0)).
  assert (Hh : filterlim h (locally (x s0)) (locally dphi)).
  { intros P HP. destruct (Qphi P HP) as [d Hd]. exists d. intros y Hy. unfold h.
    destruct (Req_EM_T y (x s0)) as [E|E]; [apply locally_singleton; exact HP|apply Hd; assumption]. }
  assert (Hhx : filterlim (fun s => h (x s)) (locally' s0) (locally dphi)).
  { apply filterlim_comp with (locally (x s0)); [|exact Hh].
    intros P HP. apply filter_le_within. exact (Hc P HP). }
  assert (Hlim : filterlim (fun s => ((l s - l s0)/(s - s0)) * / h (x s)) (locally' s0) (locally (dl * / dphi))).
  { eapply filterlim_comp_2; [exact Ql | | exact (filterlim_mult dl (/ dphi))].
    apply filterlim_comp with (locally dphi); [exact Hhx|].
    apply (filterlim_Rbar_inv dphi). intro H. inversion H. contradiction. }
  apply filterlim_ext_loc with (2 := Hlim).
  assert (Hn0 : locally' s0 (fun s => h (x s) <> 0)).
  { apply (Hhx (fun z => z <> 0)). exists (mkposreal (Rabs dphi) (Rabs_pos_lt _ Hne)). intros z Hz.
    change (Rabs (z - dphi) < Rabs dphi) in Hz. intro E. subst z.
    rewrite Rminus_0_l, Rabs_Ropp in Hz. lra. }
  assert (Hloc' : locally' s0 (fun s => phi (x s) = l s)) by (apply filter_le_within; exact Hloc).
  pose proof (filter_and _ _ Hn0 Hloc') as Hb. unfold locally', within in Hb |- *.
  revert Hb. apply filter_imp. intros s Hb Hs. destruct (Hb Hs) as [A B].
  assert (B0 : phi (x s0) = l s0) by exact (locally_singleton _ _ Hloc).
  rewrite <- B, <- B0. unfold h in A |- *. destruct (Req_EM_T (x s) (x s0)) as [E|E].
  - rewrite E. unfold Rdiv. rewrite (Rminus_eq_0 (phi (x s0))), (Rminus_eq_0 (x s0)). ring.
  - assert (gen : forall a b c : R, a <> 0 -> b <> 0 -> c <> 0 -> a / c * / (a / b) = b / c).
    { intros a b c Ha Hb' Hc'. field. repeat split; assumption. }
    apply gen.
    + intro Z. apply A. rewrite Z. unfold Rdiv. ring.
    + intro Z. apply E. exact (Rminus_diag_uniq _ _ Z).
    + intro Z. apply Hs. exact (Rminus_diag_uniq _ _ Z).
Qed.

Lemma continuity_pt_continuous f x : continuity_pt f x <-> continuous f x.
Proof. apply continuity_pt_filterlim. Qed.

Lemma incr_of_derive (phi dphi : R -> R) a b :
  (forall x, a <= x <= b -> is_derive phi x (dphi x)) -> (forall x, a <= x <= b -> 0 < dphi x) ->
  forall x y, a <= x -> x < y -> y <= b -> phi x < phi y.
Proof.
  intros D P x y Hx Hxy Hy.
  destruct (MVT_gen phi x y dphi) as [c [Hc E]].
  - intros z Hz. rewrite Rmin_left, Rmax_right in Hz by lra. apply D; lra.
  - intros z Hz. rewrite Rmin_left, Rmax_right in Hz by lra. apply derivable_continuous_pt.
    exists (dphi z). apply is_derive_Reals, D; lra.
  - rewrite Rmin_left, Rmax_right in Hc by lra.
    assert (0 < dphi c) by (apply P; lra). assert (0 < dphi c * (y - x)) by (apply Rmult_lt_0_compat; lra). lra.
Qed.

(** a function with positive derivative on a neighbourhood has a continuous local inverse *)
Lemma local_inverse_pos (phi dphi : R -> R) (x d : R) : 0 < d ->
  (forall z, x - d <= z <= x + d -> is_derive phi z (dphi z)) ->
  (forall z, x - d <= z <= x + d -> 0 < dphi z) ->
  exists psi, psi (phi x) = x /\
    locally (phi x) (fun s => phi (psi s) = s /\ continuous psi s /\ x - d <= psi s <= x + d).
Proof.
  intros Hd D P.
  set (a := x - d). set (b := x + d). assert (Hab : a < b) by (unfold a, b; lra).
  assert (INC := incr_of_derive phi dphi a b D P).
  assert (CT : forall z, a <= z <= b -> continuity_pt phi z).
  { intros z Hz. apply derivable_continuous_pt. exists (dphi z). apply is_derive_Reals, D; exact Hz. }
  assert (IV : forall y, phi a <= y <= phi b -> {z | a <= z <= b /\ phi z = y}).
  { intros y Hy. exact (f_interv_is_interv phi a b y Hab Hy CT). }
  set (psi := fun y => match Rle_dec (phi a) y with
                       | left H1 => match Rle_dec y (phi b) with
                                    | left H2 => proj1_sig (IV y (conj H1 H2)) | right _ => a end
                       | right _ => a end).
  assert (PS : forall y, phi a <= y <= phi b -> a <= psi y <= b /\ phi (psi y) = y).
  { intros y [H1 H2]. unfold psi. destruct (Rle_dec (phi a) y); [|lra]. destruct (Rle_dec y (phi b)); [|lra].
    destruct (IV y _) as [z Hz]. exact Hz. }
  assert (MON : forall z, a <= z <= b -> phi a <= phi z <= phi b).
  { intros z Hz. split.
    - destruct (Req_dec z a) as [->|E]; [lra|]. left. apply INC; lra.
    - destruct (Req_dec z b) as [->|E]; [lra|]. left. apply INC; lra. }
  assert (INV : forall z, a <= z <= b -> psi (phi z) = z).
  { intros z Hz. destruct (PS (phi z) (MON z Hz)) as [H1 H2].
    destruct (Rtotal_order (psi (phi z)) z) as [L|[E|G]]; [|exact E|].
    - assert (phi (psi (phi z)) < phi z) by (apply INC; lra). lra.
    - assert (phi z < phi (psi (phi z))) by (apply INC; lra). lra. }
  exists psi. split.
  - apply INV. unfold a, b; lra.
  - assert (L1 : phi a < phi x) by (apply INC; unfold a, b; lra).
    assert (L2 : phi x < phi b) by (apply INC; unfold a, b; lra).
    assert (E : 0 < Rmin (phi x - phi a) (phi b - phi x)) by (apply Rmin_glb_lt; lra).
    exists (mkposreal _ E). intros s Hs. change (Rabs (s - phi x) < Rmin (phi x - phi a) (phi b - phi x)) in Hs.
    assert (phi a < s < phi b).
    { pose proof (Rmin_l (phi x - phi a) (phi b - phi x)). pose proof (Rmin_r (phi x - phi a) (phi b - phi x)).
      apply Rabs_def2 in Hs. lra. }
    destruct (PS s ltac:(lra)) as [B1 B2]. split; [exact B2|split; [|exact B1]].
    apply continuity_pt_continuous. eapply (continuity_pt_recip_interv phi psi a b Hab).
    all: try exact INC; try exact CT; try lra.
    + intros z Hz1 Hz2. unfold comp, id. apply PS; lra.
    + intros z Hz1 Hz2. apply PS; lra.
Qed.

Lemma local_inverse_neg (phi dphi : R -> R) (x d : R) : 0 < d ->
  (forall z, x - d <= z <= x + d -> is_derive phi z (dphi z)) ->
  (forall z, x - d <= z <= x + d -> dphi z < 0) ->
  exists psi, psi (phi x) = x /\
    locally (phi x) (fun s => phi (psi s) = s /\ continuous psi s /\ x - d <= psi s <= x + d).
Proof.
  intros Hd D P.
  destruct (local_inverse_pos (fun z => - phi z) (fun z => - dphi z) x d Hd) as [psi [H1 H2]].
  - intros z Hz. apply (@is_derive_opp R_AbsRing R_NormedModule phi). apply D; exact Hz.
  - intros z Hz. specialize (P z Hz). lra.
  - exists (fun s => psi (- s)). split; [exact H1|].
    destruct H2 as [eps H2]. exists eps. intros s Hs. change (Rabs (s - phi x) < eps) in Hs.
    destruct (H2 (- s)) as [A [B C]].
    + change (Rabs (- s - - phi x) < eps). rewrite <- Rabs_Ropp. replace (- (- s - - phi x)) with (s - phi x) by ring. exact Hs.
    + split; [lra|split; [|exact C]].
      apply (continuous_comp (fun s => - s) psi); [|exact B].
      apply (continuous_opp (fun s : R => s)). apply continuous_id.
Qed.
