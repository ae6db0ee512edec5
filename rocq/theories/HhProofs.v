(** What the Householder routines of HhModel do to each entry, and the algebra of reflections. *)
From Coq Require Import Reals Arith Bool Lia Lra.
From Verif Require Import LaSpec LaBase HhModel.
Local Open Scope R_scope.

Lemma get_put o a k i x k' i' : get o (put o a k i x) k' i' = if Nat.eqb k' k && Nat.eqb i' i then x else get o a k' i'.
Proof.
  destruct o; cbn.
  - now rewrite andb_comm.
  - destruct (Nat.eqb_spec k' k); destruct (Nat.eqb_spec i' i); cbn; auto.
Qed.
Lemma inRange i l m : (l <=? i)%nat && (i <? m)%nat = true <-> (l <= i < m)%nat.
Proof. rewrite andb_true_iff, Nat.leb_le, Nat.ltb_lt. lia. Qed.
Lemma inRange_false i l m : (l <=? i)%nat && (i <? m)%nat = false <-> ~ (l <= i < m)%nat.
Proof. rewrite <- inRange. destruct ((l <=? i)%nat && (i <? m)%nat); split; congruence. Qed.

(** the vector u of the transformation I + u u^T / b *)
Definition uvec (p l m : nat) (w : vec) (h : R) : vec :=
  fun i => if Nat.eqb i p then h else if (l <=? i)%nat && (i <? m)%nat then w i else 0.
Definition refl (m : nat) (u : vec) (b : R) (c : vec) : vec := fun i => c i + dot m u c / b * u i.

Lemma dot_uvec p l m w h c N : (p < l)%nat -> (l <= m)%nat -> (m <= N)%nat ->
  dot N (uvec p l m w h) c = h * c p + sum (m - l) (fun k => w (l + k)%nat * c (l + k)%nat).
Proof.
  intros Hp Hl HN. unfold dot.
  rewrite (sum_at N p _ (fun i => if (l <=? i)%nat && (i <? m)%nat then w i * c i else 0)); [|
    intros i _ Ne; unfold uvec; destruct (Nat.eqb_spec i p); [contradiction|]; destruct ((l <=? i)%nat && (i <? m)%nat); lra | lia].
  rewrite (sum_range l m N (fun i => w i * c i)) by lia.
  unfold uvec. rewrite Nat.eqb_refl. replace ((l <=? p)%nat && (p <? m)%nat) with false; [lra|].
  symmetry. apply inRange_false. lia.
Qed.

Lemma addLoop o (s : R) (w : vec) j l m c : (l <= m)%nat -> forall j' i',
  get o (forUp l m (fun i c => put o c j i (get o c j i + s * w i)) c) j' i' =
  if Nat.eqb j' j && ((l <=? i')%nat && (i' <? m)%nat) then get o c j' i' + s * w i' else get o c j' i'.
Proof.
  intros L.
  apply (forUp_inv (fun k c' => forall j' i', get o c' j' i' =
    if Nat.eqb j' j && ((l <=? i')%nat && (i' <? k)%nat) then get o c j' i' + s * w i' else get o c j' i')); auto.
  - intros j' i'. replace ((l <=? i')%nat && (i' <? l)%nat) with false; [now rewrite andb_false_r|].
    symmetry. apply inRange_false. lia.
  - intros i c' Hi H j' i'. rewrite get_put. destruct (Nat.eqb_spec j' j); cbn [andb].
    + subst. destruct (Nat.eqb_spec i' i).
      * subst. rewrite H, Nat.eqb_refl. cbn [andb].
        replace ((l <=? i)%nat && (i <? i)%nat) with false; [|symmetry; apply inRange_false; lia].
        replace ((l <=? i)%nat && (i <? S i)%nat) with true; [auto|symmetry; apply inRange; lia].
      * rewrite H, Nat.eqb_refl. cbn [andb].
        destruct ((l <=? i')%nat && (i' <? i)%nat) eqn:E; [apply inRange in E|apply inRange_false in E].
        -- replace ((l <=? i')%nat && (i' <? S i)%nat) with true; [auto|symmetry; apply inRange; lia].
        -- replace ((l <=? i')%nat && (i' <? S i)%nat) with false; [auto|symmetry; apply inRange_false; lia].
    + rewrite H. destruct (Nat.eqb_spec j' j); [contradiction|auto].
Qed.

Lemma hOne_get ov oc p l m v vk h b j c j' i' : (p < l)%nat -> (l <= m)%nat ->
  get oc (hOne ov oc p l m v vk h b j c) j' i' =
  if Nat.eqb j' j then refl m (uvec p l m (get ov v vk) h) b (get oc c j) i' else get oc c j' i'.
Proof.
  intros Hp Hl. unfold hOne. rewrite addLoop by auto. rewrite forUp_sum, get_put.
  destruct (Nat.eqb_spec j' j); cbn [andb]; auto. subst j'. unfold refl. rewrite dot_uvec by lia.
  rewrite (Rmult_comm (get oc c j p) h).
  rewrite (sum_ext (m - l) (fun k => get oc c j (l + k)%nat * get ov v vk (l + k)%nat) (fun k => get ov v vk (l + k)%nat * get oc c j (l + k)%nat)) by (intros; lra).
  set (s := _ / b). unfold uvec. destruct (Nat.eqb_spec i' p).
  - subst. replace ((l <=? p)%nat && (p <? m)%nat) with false; [auto|]. symmetry. apply inRange_false. lia.
  - destruct ((l <=? i')%nat && (i' <? m)%nat); lra.
Qed.

Lemma dot_refl_ext m u b c c' i : (forall k, c k = c' k) -> refl m u b c i = refl m u b c' i.
Proof. intros H. unfold refl. rewrite H. f_equal. f_equal. f_equal. now apply dot_ext. Qed.

Lemma hApply_get ov oc p l m v vk h c cs ce j i : (p < l)%nat -> (l <= m)%nat ->
  get oc (hApply ov oc p l m v vk h c cs ce) j i =
  if (cs <=? j)%nat && (j <? ce)%nat then
    if Req_EM_T (get ov v vk p * h) 0 then get oc c j i
    else refl m (uvec p l m (get ov v vk) h) (get ov v vk p * h) (get oc c j) i
  else get oc c j i.
Proof.
  intros Hp Hl. unfold hApply. destruct (Req_EM_T (get ov v vk p * h) 0) as [B|B].
  - destruct ((cs <=? j)%nat && (j <? ce)%nat); auto.
  - destruct (Nat.le_gt_cases cs ce) as [L|L].
    2:{ rewrite forUp_empty by lia. replace ((cs <=? j)%nat && (j <? ce)%nat) with false; auto. symmetry. apply inRange_false. lia. }
    revert j i.
    apply (forUp_inv (fun k c' => forall j i, get oc c' j i = if (cs <=? j)%nat && (j <? k)%nat then _ else get oc c j i)); auto.
    + intros j i. replace ((cs <=? j)%nat && (j <? cs)%nat) with false; auto. symmetry. apply inRange_false. lia.
    + intros k c' Hk H j i. rewrite hOne_get by auto. destruct (Nat.eqb_spec j k).
      * subst. replace ((cs <=? k)%nat && (k <? S k)%nat) with true; [|symmetry; apply inRange; lia].
        apply dot_refl_ext. intros i'. rewrite H.
        replace ((cs <=? k)%nat && (k <? k)%nat) with false; auto. symmetry. apply inRange_false. lia.
      * rewrite H. destruct ((cs <=? j)%nat && (j <? k)%nat) eqn:E; [apply inRange in E|apply inRange_false in E].
        -- replace ((cs <=? j)%nat && (j <? S k)%nat) with true; auto. symmetry. apply inRange. lia.
        -- replace ((cs <=? j)%nat && (j <? S k)%nat) with false; auto. symmetry. apply inRange_false. lia.
Qed.

(** ** The construction *)
Definition pivotNorm2 (p l m : nat) (w : vec) : R := w p * w p + sum (m - l) (fun k => w (l + k)%nat * w (l + k)%nat).
Lemma pivotNorm2_pos p l m w : 0 <= pivotNorm2 p l m w.
Proof. unfold pivotNorm2. assert (0 <= sum (m - l) (fun k => w (l + k)%nat * w (l + k)%nat)) by (apply sum_pos; intros; nra). nra. Qed.
Lemma pivotNorm2_zero p l m w : pivotNorm2 p l m w = 0 -> w p = 0 /\ forall i, (l <= i < m)%nat -> w i = 0.
Proof.
  unfold pivotNorm2. intros H.
  assert (P : 0 <= sum (m - l) (fun k => w (l + k)%nat * w (l + k)%nat)) by (apply sum_pos; intros; nra).
  split; [nra|]. intros i Hi. assert (Z : norm2 (m - l) (fun k => w (l + k)%nat) = 0) by (unfold norm2, dot; nra).
  pose proof (norm2_zero _ _ Z (i - l)%nat ltac:(lia)) as Q. cbn in Q. now replace (l + (i - l))%nat with i in Q by lia.
Qed.
(** the s and h of the C *)
Definition sOf (p l m : nat) (w : vec) : R := if Rlt_dec 0 (w p) then - sqrt (pivotNorm2 p l m w) else sqrt (pivotNorm2 p l m w).
Lemma sOf_sq p l m w : sOf p l m w * sOf p l m w = pivotNorm2 p l m w.
Proof. unfold sOf. pose proof (sqrt_sqrt _ (pivotNorm2_pos p l m w)). destruct (Rlt_dec 0 (w p)); lra. Qed.
Lemma hBuild_eq o p l m v vk : hBuild o p l m v vk = (put o v vk p (sOf p l m (get o v vk)), get o v vk p - sOf p l m (get o v vk)).
Proof.
  unfold hBuild. rewrite forUp_sum. unfold sOf. fold (pivotNorm2 p l m (get o v vk)).
  destruct (Rlt_dec 0 (get o v vk p)); do 2 f_equal; lra.
Qed.
(** b = s h is zero only for a zero pivot vector, and h^2 + sum v_i^2 = -2 b *)
Lemma b_zero p l m w : sOf p l m w * (w p - sOf p l m w) = 0 -> pivotNorm2 p l m w = 0.
Proof.
  intros H. rewrite <- (sOf_sq p l m w). pose proof (sqrt_pos (pivotNorm2 p l m w)) as Sp. unfold sOf in *.
  destruct (Rlt_dec 0 (w p)) as [Q|Q].
  - apply Rmult_integral in H. destruct H; nra.
  - apply Rmult_integral in H. destruct H as [H|H]; [rewrite H; lra|]. assert (w p = 0) by lra. nra.
Qed.
Lemma u_norm p l m w N : (p < l)%nat -> (l <= m)%nat -> (m <= N)%nat ->
  dot N (uvec p l m w (w p - sOf p l m w)) (uvec p l m w (w p - sOf p l m w)) = -2 * (sOf p l m w * (w p - sOf p l m w)).
Proof.
  intros Hp Hl HN. rewrite dot_uvec by auto. set (h := w p - sOf p l m w). unfold uvec at 1. rewrite Nat.eqb_refl.
  rewrite (sum_ext (m - l) _ (fun k => w (l + k)%nat * w (l + k)%nat)).
  - pose proof (sOf_sq p l m w) as Q. unfold pivotNorm2 in Q. unfold h. nra.
  - intros i Hi. unfold uvec. destruct (Nat.eqb_spec (l + i) p); [lia|].
    replace ((l <=? l + i)%nat && (l + i <? m)%nat) with true; auto. symmetry. apply inRange. lia.
Qed.
Lemma u_dot_w p l m w N : (p < l)%nat -> (l <= m)%nat -> (m <= N)%nat ->
  dot N (uvec p l m w (w p - sOf p l m w)) w = - (sOf p l m w * (w p - sOf p l m w)).
Proof. intros Hp Hl HN. rewrite dot_uvec by auto. pose proof (sOf_sq p l m w) as Q. unfold pivotNorm2 in Q. nra. Qed.

(** ** The algebra *)
Lemma dot_plus_scal N u v t w : dot N (fun i => u i + t * v i) w = dot N u w + t * dot N v w.
Proof. rewrite dot_plus_l. now rewrite (dot_scal_l N t v w). Qed.
Lemma dot_bilin N u x y s t : dot N (fun i => x i + s * u i) (fun i => y i + t * u i) = dot N x y + t * dot N u x + s * dot N u y + s * t * dot N u u.
Proof. unfold dot. rewrite <- !sum_scal, <- !sum_plus. apply sum_ext. intros. ring. Qed.
Lemma refl_dot m N u b x y : b <> 0 -> (forall z, dot N u z = dot m u z) -> dot m u u = -2 * b ->
  dot N (refl m u b x) (refl m u b y) = dot N x y.
Proof. intros B HN Hu. unfold refl. rewrite dot_bilin, !HN, Hu. field. auto. Qed.
Lemma refl_twice m u b x i : b <> 0 -> dot m u u = -2 * b -> refl m u b (refl m u b x) i = x i.
Proof.
  intros B Hu. unfold refl at 1. rewrite (dot_sym m u). unfold refl at 1 2. rewrite dot_plus_scal, Hu, (dot_sym m x). field. auto.
Qed.
