(** hfti computes least-squares solutions: the invariant of the triangularisation. *)
From Coq Require Import Reals ZArith Arith Bool Lia Lra.
From Verif Require Import LaSpec LaBase HhModel HhProofs.
Local Open Scope R_scope.

(** sum of the squares of entries i..m-1 *)
Definition tail (i m : nat) (x : vec) : R := sum (m - i) (fun k => x (i + k)%nat * x (i + k)%nat).
Lemma tail_norm i m x : (i <= m)%nat -> tail i m x = norm2 m x - norm2 i x.
Proof. intros L. unfold tail, norm2, dot. rewrite (sum_split m i) by auto. lra. Qed.
Lemma tail_pos i m x : 0 <= tail i m x.
Proof. apply sum_pos. intros. nra. Qed.
Lemma tail_S i m x : (i < m)%nat -> tail i m x = x i * x i + tail (S i) m x.
Proof. intros L. rewrite !tail_norm by lia. unfold norm2, dot. cbn. lra. Qed.
Lemma tail_ext i m x y : (forall k, (i <= k < m)%nat -> x k = y k) -> tail i m x = tail i m y.
Proof. intros H. unfold tail. apply sum_ext. intros k Hk. rewrite H by lia. auto. Qed.
Lemma tail_pivot j m x : (j < m)%nat -> tail j m x = pivotNorm2 j (j + 1) m x.
Proof. intros L. rewrite tail_S by auto. unfold tail, pivotNorm2. rewrite (Nat.add_1_r j). auto. Qed.

(** linear maps on the first m entries that keep lengths, with a right inverse *)
Definition orth (m : nat) (Q Qi : (nat -> R) -> nat -> R) : Prop :=
  (forall x y, (forall i, (i < m)%nat -> x i = y i) -> forall i, (i < m)%nat -> Q x i = Q y i) /\
  (forall x y, (forall i, (i < m)%nat -> x i = y i) -> forall i, (i < m)%nat -> Qi x i = Qi y i) /\
  (forall x y t i, (i < m)%nat -> Q (fun k => x k + t * y k) i = Q x i + t * Q y i) /\
  (forall x, norm2 m (Q x) = norm2 m x) /\
  (forall x i, (i < m)%nat -> Q (Qi x) i = x i).
Lemma orth_id m : orth m (fun x => x) (fun x => x).
Proof. repeat split; auto. Qed.
Lemma orth_comp m Q Qi P Pi : orth m Q Qi -> orth m P Pi -> orth m (fun x => P (Q x)) (fun x => Qi (Pi x)).
Proof.
  intros (A1 & A2 & A3 & A4 & A5) (B1 & B2 & B3 & B4 & B5). repeat split.
  - intros x y H i L. apply B1; auto.
  - intros x y H i L. apply A2; auto.
  - intros x y t i L. rewrite <- B3 by auto. apply B1; auto.
  - intros x. now rewrite B4, A4.
  - intros x i L. rewrite <- (B5 x i L). apply B1; auto.
Qed.
Lemma refl_ext m u b x y : (forall i, (i < m)%nat -> x i = y i) -> forall i, (i < m)%nat -> refl m u b x i = refl m u b y i.
Proof. intros H i L. unfold refl. rewrite H by auto. now rewrite (dot_ext m u u x y). Qed.
Lemma refl_lin m u b x y t i : refl m u b (fun k => x k + t * y k) i = refl m u b x i + t * refl m u b y i.
Proof. unfold refl. rewrite (dot_sym m u), dot_plus_scal, (dot_sym m x), (dot_sym m y). unfold Rdiv. ring. Qed.
Lemma orth_refl m u b : b <> 0 -> dot m u u = -2 * b -> orth m (refl m u b) (refl m u b).
Proof.
  intros B U. repeat split.
  - intros x y H i L. now apply refl_ext.
  - intros x y H i L. now apply refl_ext.
  - intros. apply refl_lin.
  - intros x. unfold norm2. now apply refl_dot.
  - intros x i L. now apply refl_twice.
Qed.

(** ** The reflection of one step: Householder on the entries j..m-1 of the vector w *)
Definition stepQ (p l m : nat) (w : vec) : (nat -> R) -> nat -> R :=
  if (p <? l)%nat && (l <? m)%nat then
    if Req_EM_T (sOf p l m w * (w p - sOf p l m w)) 0 then fun x => x
    else refl m (uvec p l m w (w p - sOf p l m w)) (sOf p l m w * (w p - sOf p l m w))
  else fun x => x.
Lemma stepQ_orth p l m w : orth m (stepQ p l m w) (stepQ p l m w).
Proof.
  unfold stepQ. destruct ((p <? l)%nat && (l <? m)%nat) eqn:G; [|apply orth_id].
  apply andb_true_iff in G. rewrite !Nat.ltb_lt in G.
  destruct (Req_EM_T _ 0) as [B|B]; [apply orth_id|]. apply orth_refl; auto. apply u_norm; lia.
Qed.
Lemma uvec_out p l m w h i : i <> p -> ~ (l <= i < m)%nat -> uvec p l m w h i = 0.
Proof.
  intros N Ng. unfold uvec. destruct (Nat.eqb_spec i p); [contradiction|].
  replace ((l <=? i)%nat && (i <? m)%nat) with false; auto. symmetry. now apply inRange_false.
Qed.
Lemma stepQ_out p l m w x i : i <> p -> ~ (l <= i < m)%nat -> stepQ p l m w x i = x i.
Proof.
  intros N Ng. unfold stepQ. destruct ((p <? l)%nat && (l <? m)%nat) eqn:G; auto.
  destruct (Req_EM_T _ 0); auto. unfold refl. rewrite uvec_out by auto. lra.
Qed.
Lemma stepQ_pivot_gen p l m w : (p < l)%nat -> (l < m)%nat ->
  stepQ p l m w w p = sOf p l m w /\ forall i, (l <= i < m)%nat -> stepQ p l m w w i = 0.
Proof.
  intros Hp Hl. unfold stepQ.
  replace ((p <? l)%nat && (l <? m)%nat) with true by (symmetry; apply andb_true_iff; rewrite !Nat.ltb_lt; lia).
  destruct (Req_EM_T _ 0) as [B|B].
  - pose proof (b_zero _ _ _ _ B) as Z. destruct (pivotNorm2_zero _ _ _ _ Z) as [Zp Zi].
    split; [|auto]. rewrite Zp. pose proof (sOf_sq p l m w). nra.
  - unfold refl. rewrite u_dot_w by lia. assert (D : - (sOf p l m w * (w p - sOf p l m w)) / (sOf p l m w * (w p - sOf p l m w)) = -1) by (field; split; intro E; apply B; rewrite E; ring).
    rewrite D. split.
    + unfold uvec. rewrite Nat.eqb_refl. lra.
    + intros i Hi. unfold uvec. destruct (Nat.eqb_spec i p); [lia|].
      replace ((l <=? i)%nat && (i <? m)%nat) with true by (symmetry; apply inRange; lia). lra.
Qed.
(** the case l = p+1, where l = m is allowed *)
Definition sStep (j m : nat) (w : vec) : R := if (j + 1 <? m)%nat then sOf j (j + 1) m w else w j.
Lemma sStep_sq j m w : (j < m)%nat -> sStep j m w * sStep j m w = tail j m w.
Proof.
  intros L. unfold sStep. destruct (Nat.ltb_spec (j + 1) m).
  - rewrite sOf_sq. symmetry. now apply tail_pivot.
  - rewrite tail_S by auto. unfold tail. replace (m - S j)%nat with O by lia. cbn. lra.
Qed.
Lemma stepQ_pivot j m w i : (j < m)%nat -> (i < m)%nat ->
  stepQ j (j + 1) m w w i = if (i <? j)%nat then w i else if Nat.eqb i j then sStep j m w else 0.
Proof.
  intros Lj Li. unfold sStep. destruct (Nat.ltb_spec i j); [apply stepQ_out; lia|].
  destruct (Nat.ltb_spec (j + 1) m) as [L|L].
  - destruct (stepQ_pivot_gen j (j + 1) m w) as [A B]; try lia.
    destruct (Nat.eqb_spec i j); [now subst|]. apply B. lia.
  - unfold stepQ. replace ((j <? j + 1)%nat && (j + 1 <? m)%nat) with false.
    + destruct (Nat.eqb_spec i j); [now subst|lia].
    + symmetry. apply andb_false_iff. rewrite !Nat.ltb_ge. lia.
Qed.

(** what the two calls of a step of hfti do *)
Lemma self_get o p l m a vk h cs ce k i : (forall k, (cs <= k < ce)%nat -> k <> vk) ->
  get o (fst (householderSelf o o p l m a vk h cs ce)) k i =
  if (cs <=? k)%nat && (k <? ce)%nat then stepQ p l m (get o a vk) (get o a k) i
  else if Nat.eqb k vk && Nat.eqb i p && ((p <? l)%nat && (l <? m)%nat) then sOf p l m (get o a vk)
  else get o a k i.
Proof.
  intros Hk. unfold householderSelf, stepQ. destruct ((p <? l)%nat && (l <? m)%nat) eqn:G.
  2:{ cbn [fst]. rewrite andb_false_r. destruct ((cs <=? k)%nat && (k <? ce)%nat); auto. }
  apply andb_true_iff in G. rewrite !Nat.ltb_lt in G. rewrite hBuild_eq. cbn [fst].
  rewrite hApply_get by lia. rewrite !get_put, !Nat.eqb_refl. cbn [andb]. rewrite andb_true_r.
  set (s := sOf p l m (get o a vk)). set (h' := get o a vk p - s).
  destruct ((cs <=? k)%nat && (k <? ce)%nat) eqn:C; auto. apply inRange in C.
  assert (N : k <> vk) by auto. destruct (Nat.eqb_spec k vk); [contradiction|]. cbn [andb].
  destruct (Req_EM_T (s * h') 0); auto.
  unfold refl. rewrite get_put. destruct (Nat.eqb_spec k vk); [contradiction|]. cbn [andb].
  assert (U : forall i, uvec p l m (get o (put o a vk p s) vk) h' i = uvec p l m (get o a vk) h' i).
  { intros i'. unfold uvec. destruct (Nat.eqb_spec i' p); auto. rewrite get_put, Nat.eqb_refl. destruct (Nat.eqb_spec i' p); [contradiction|auto]. }
  rewrite U. f_equal. f_equal. f_equal. apply dot_ext; auto. intros i' _. rewrite get_put. destruct (Nat.eqb_spec k vk); [contradiction|auto].
Qed.
Lemma self_h o p l m a vk h cs ce : snd (householderSelf o o p l m a vk h cs ce) =
  if (p <? l)%nat && (l <? m)%nat then get o a vk p - sOf p l m (get o a vk) else h.
Proof. unfold householderSelf. destruct ((p <? l)%nat && (l <? m)%nat); auto. now rewrite hBuild_eq. Qed.
(** H2 with the vector that H1 has left: w is the vector before H1 *)
Lemma h2_get ov oc p l m v vk h c cs ce w k i :
  (forall i, (l <= i < m)%nat -> get ov v vk i = w i) ->
  ((p <? l)%nat && (l <? m)%nat = true -> get ov v vk p = sOf p l m w /\ h = w p - sOf p l m w) ->
  get oc (snd (householder ov oc H2 p l m v vk h c cs ce)) k i =
  if (cs <=? k)%nat && (k <? ce)%nat then stepQ p l m w (get oc c k) i else get oc c k i.
Proof.
  intros Hw Hs. unfold householder, stepQ. destruct ((p <? l)%nat && (l <? m)%nat) eqn:G.
  2:{ cbn [snd]. destruct ((cs <=? k)%nat && (k <? ce)%nat); auto. }
  destruct (Hs eq_refl) as [S1 S2]. apply andb_true_iff in G. rewrite !Nat.ltb_lt in G. cbn [snd].
  rewrite hApply_get by lia. rewrite S1, S2. destruct ((cs <=? k)%nat && (k <? ce)%nat); auto.
  destruct (Req_EM_T _ 0); auto.
  assert (U : forall i, uvec p l m (get ov v vk) (w p - sOf p l m w) i = uvec p l m w (w p - sOf p l m w) i).
  { intros i'. unfold uvec. destruct (Nat.eqb_spec i' p); auto. destruct ((l <=? i')%nat && (i' <? m)%nat) eqn:E; auto. apply Hw. now apply inRange. }
  unfold refl. rewrite U. f_equal. f_equal. f_equal. now apply dot_ext.
Qed.

(** ** One step of hfti *)
Lemma argmax_ok j n h : (j < n)%nat -> (j <= argmax j n h < n)%nat /\ forall l, (j <= l < n)%nat -> h l <= h (argmax j n h).
Proof.
  intros L. unfold argmax.
  pose proof (forUp_inv (fun k lam => (j <= lam)%nat /\ (lam < n)%nat /\ forall l, (j <= l < k)%nat -> h l <= h lam) j n
    (fun l lam => if Rlt_dec (h lam) (h l) then l else lam) j) as K. cbn beta in K. destruct K as (A & B & C).
  { lia. }
  { split; [lia|split; [lia|]]. intros l Hl. exfalso; lia. }
  {
    intros i lam Hi (A & B & C). destruct (Rlt_dec (h lam) (h i)) as [Q|Q].
      + split; [lia|split; [lia|]]. intros l Hl. destruct (Nat.eq_dec l i); [subst; lra|]. specialize (C l ltac:(lia)). lra.
      + split; [auto|split; [auto|]]. intros l Hl. destruct (Nat.eq_dec l i); [subst; lra|]. apply C. lia. }
  split; auto.
Qed.
Lemma updv_get h i x k : updv h i x k = if Nat.eqb k i then x else h k.
Proof. reflexivity. Qed.
Lemma updv_loop lo hi (g : nat -> R -> R) h : (lo <= hi)%nat -> forall l,
  forUp lo hi (fun l h => updv h l (g l (h l))) h l = if (lo <=? l)%nat && (l <? hi)%nat then g l (h l) else h l.
Proof.
  intros L. apply (forUp_inv (fun k h' => forall l, h' l = if (lo <=? l)%nat && (l <? k)%nat then g l (h l) else h l)); auto.
  - intros l. replace ((lo <=? l)%nat && (l <? lo)%nat) with false; auto. symmetry. apply inRange_false. lia.
  - intros i h' Hi H l. rewrite updv_get. destruct (Nat.eqb_spec l i).
    + subst. rewrite H. replace ((lo <=? i)%nat && (i <? i)%nat) with false; [|symmetry; apply inRange_false; lia].
      replace ((lo <=? i)%nat && (i <? S i)%nat) with true; auto. symmetry. apply inRange. lia.
    + rewrite H. destruct ((lo <=? l)%nat && (l <? i)%nat) eqn:E; [apply inRange in E|apply inRange_false in E].
      * replace ((lo <=? l)%nat && (l <? S i)%nat) with true; auto. symmetry. apply inRange. lia.
      * replace ((lo <=? l)%nat && (l <? S i)%nat) with false; auto. symmetry. apply inRange_false. lia.
Qed.
(** the column norms held in h when the pivot column is chosen, and the choice *)
Definition hPick (m n : nat) (j : nat) (s : hstate) : vec * nat * R :=
  let a := ha s in
  let '(h1, lam1) :=
    if (0 <? j)%nat then
      let h1 := forUp j n (fun l h => updv h l (h l - a (j - 1)%nat l * a (j - 1)%nat l)) (hh s) in (h1, argmax j n h1)
    else (hh s, hlam s) in
  if (Nat.eqb j 0) || (if Rle_dec (hBar s + 1 / 1000 * h1 lam1) (hBar s) then true else false) then
    let h2 := forUp j n (fun l h => updv h l (forUp j m (fun i x => x + a i l * a i l) 0)) h1 in
    let lam := argmax j n h2 in (h2, lam, h2 lam)
  else (h1, lam1, hBar s).
Lemma hPick_ok m n j s : (j < n)%nat -> (n <= m)%nat ->
  ((0 < j)%nat -> forall l, (j <= l < n)%nat -> hh s l = tail (j - 1) m (column (ha s) l)) ->
  let '(h2, lam, _) := hPick m n j s in
  (j <= lam < n)%nat /\ (forall l, (j <= l < n)%nat -> h2 l = tail j m (column (ha s) l)) /\ (forall l, (j <= l < n)%nat -> h2 l <= h2 lam).
Proof.
  intros Lj Ln Hh. unfold hPick.
  assert (R2 : forall h1, let h2 := forUp j n (fun l h => updv h l (forUp j m (fun i x => x + ha s i l * ha s i l) 0)) h1 in
      (forall l, (j <= l < n)%nat -> h2 l = tail j m (column (ha s) l))).
  { intros h1 h2 l Hl. unfold h2. rewrite (updv_loop j n (fun l _ => forUp j m (fun i x => x + ha s i l * ha s i l) 0)) by lia.
    replace ((j <=? l)%nat && (l <? n)%nat) with true; [|symmetry; apply inRange; lia].
    rewrite forUp_sum. unfold tail, column. lra. }
  destruct (Nat.ltb_spec 0 j) as [J|J].
  - set (h1 := forUp j n _ (hh s)).
    assert (R1 : forall l, (j <= l < n)%nat -> h1 l = tail j m (column (ha s) l)).
    { intros l Hl. unfold h1. rewrite (updv_loop j n (fun l x => x - ha s (j - 1)%nat l * ha s (j - 1)%nat l)) by lia.
      replace ((j <=? l)%nat && (l <? n)%nat) with true; [|symmetry; apply inRange; lia].
      rewrite Hh by auto. rewrite (tail_S (j - 1)) by lia. replace (S (j - 1)) with j by lia. unfold column. lra. }
    destruct ((Nat.eqb j 0) || _).
    + destruct (argmax_ok j n (forUp j n (fun l h => updv h l (forUp j m (fun i x => x + ha s i l * ha s i l) 0)) h1) Lj) as [A B].
      split; [exact A|split]; [apply R2|exact B].
    + destruct (argmax_ok j n h1 Lj) as [A B]. split; [exact A|split]; auto.
  - replace j with O in * by lia. cbn [Nat.eqb orb].
    destruct (argmax_ok 0 n (forUp 0 n (fun l h => updv h l (forUp 0 m (fun i x => x + ha s i l * ha s i l) 0)) (hh s)) Lj) as [A B].
    split; [exact A|split]; [apply R2|exact B].
Qed.
Lemma swapCols_get m a j k r c : (r < m)%nat -> swapCols m a j k r c = if Nat.eqb c j then a r k else if Nat.eqb c k then a r j else a r c.
Proof. intros L. unfold swapCols. destruct (Nat.ltb_spec r m); [auto|lia]. Qed.
Lemma stepQ_tail i j m w x : (i <= j)%nat -> (j < m)%nat -> tail i m (stepQ j (j + 1) m w x) = tail i m x.
Proof.
  intros Li Lj. rewrite !tail_norm by lia. destruct (stepQ_orth j (j + 1) m w) as (_ & _ & _ & N & _). rewrite N. f_equal.
  apply norm2_ext. intros k Hk. apply stepQ_out; lia.
Qed.
Lemma stepQ_ext p l m w w' x i : (forall k, (k < m)%nat -> w k = w' k) -> (p < m)%nat -> stepQ p l m w x i = stepQ p l m w' x i.
Proof.
  intros H Hp. unfold stepQ. destruct ((p <? l)%nat && (l <? m)%nat) eqn:G; auto.
  apply andb_true_iff in G. rewrite !Nat.ltb_lt in G.
  assert (P : pivotNorm2 p l m w = pivotNorm2 p l m w').
  { unfold pivotNorm2. rewrite H by auto. f_equal. apply sum_ext. intros k Hk. rewrite H by lia. auto. }
  assert (S : sOf p l m w = sOf p l m w') by (unfold sOf; now rewrite P, H). rewrite S, (H p Hp).
  destruct (Req_EM_T _ 0); auto.
  assert (U : forall k, uvec p l m w (w' p - sOf p l m w') k = uvec p l m w' (w' p - sOf p l m w') k).
  { intros k. unfold uvec. destruct (Nat.eqb_spec k p); auto. destruct ((l <=? k)%nat && (k <? m)%nat) eqn:E; auto. apply inRange in E. apply H. lia. }
  unfold refl. rewrite U. f_equal. f_equal. f_equal. now apply dot_ext.
Qed.

Lemma hStep_ok m n nb j s : (j < n)%nat -> (n <= m)%nat ->
  ((0 < j)%nat -> forall l, (j <= l < n)%nat -> hh s l = tail (j - 1) m (column (ha s) l)) ->
  exists lam, (j <= lam < n)%nat /\
    let a1 := swapCols m (ha s) j lam in let w := column a1 j in let s' := hStep m n nb j s in
    hp s' = updi (hp s) j lam /\
    (forall l, (j <= l < n)%nat -> tail j m (column (ha s) l) <= tail j m w) /\
    (forall i c, (i < m)%nat -> ha s' i c =
      if (j + 1 <=? c)%nat && (c <? n)%nat then stepQ j (j + 1) m w (column a1 c) i
      else if Nat.eqb c j && Nat.eqb i j then sStep j m w else a1 i c) /\
    (forall l i, (l < nb)%nat -> (i < m)%nat -> hb s' i l = stepQ j (j + 1) m w (column (hb s) l) i) /\
    (forall l, (j < l < n)%nat -> hh s' l = tail j m (column (ha s') l)).
Proof.
  intros Lj Ln Hh. pose proof (hPick_ok m n j s Lj Ln Hh) as K.
  assert (E : hStep m n nb j s =
    let '(h2, lam, hbar) := hPick m n j s in
    let p := updi (hp s) j lam in
    let '(a1, h3) := if Nat.eqb lam j then (ha s, h2) else (swapCols m (ha s) j lam, updv h2 lam (h2 j)) in
    let '(a2, hj) := householderSelf Col Col j (j + 1) m a1 j (h3 j) (j + 1) n in
    let h4 := updv h3 j hj in
    let '(_, _, b1) := householder Col Col H2 j (j + 1) m a2 j (h4 j) (hb s) 0 nb in
    mkH a2 b1 h4 p hbar lam).
  { unfold hStep, hPick. destruct (Nat.ltb_spec 0 j); destruct ((Nat.eqb j 0) || _); reflexivity. }
  rewrite E. clear E. destruct (hPick m n j s) as [[h2 lam] hbar]. destruct K as (Llam & Hn & Hmax). exists lam. split; [auto|].
  destruct (if Nat.eqb lam j then (ha s, h2) else (swapCols m (ha s) j lam, updv h2 lam (h2 j))) as [a1' h3] eqn:S.
  cbv zeta. set (a1 := swapCols m (ha s) j lam) in *. set (w := column a1 j).
  assert (Ww : forall i, (i < m)%nat -> w i = ha s i lam) by (intros i Li; unfold w, column, a1; rewrite swapCols_get, Nat.eqb_refl by auto; auto).
  assert (A1 : forall r c, (r < m)%nat -> a1' r c = a1 r c).
  { intros r c Lr. unfold a1. destruct (Nat.eqb_spec lam j); inversion S; subst; auto. rewrite swapCols_get by auto.
    destruct (Nat.eqb_spec c j); now subst. }
  assert (H3 : forall l, (j < l < n)%nat -> h3 l = tail j m (column a1 l)).
  { intros l Hl. destruct (Nat.eqb_spec lam j); inversion S; subst.
    - rewrite Hn by lia. apply tail_ext. intros k Hk. unfold column, a1. rewrite swapCols_get by lia.
      destruct (Nat.eqb_spec l j); [lia|auto].
    - rewrite updv_get. destruct (Nat.eqb_spec l lam).
      + subst. rewrite Hn by lia. apply tail_ext. intros k Hk. unfold column, a1. rewrite swapCols_get by lia.
        destruct (Nat.eqb_spec lam j); [lia|]. now rewrite Nat.eqb_refl.
      + rewrite Hn by lia. apply tail_ext. intros k Hk. unfold column, a1. rewrite swapCols_get by lia.
        destruct (Nat.eqb_spec l j); [lia|]. destruct (Nat.eqb_spec l lam); [lia|auto]. }
  pose proof (fun k i H => self_get Col j (j + 1) m a1' j (h3 j) (j + 1) n k i H) as G. cbn [get] in G.
  pose proof (self_h Col j (j + 1) m a1' j (h3 j) (j + 1) n) as Gh.
  destruct (householderSelf Col Col j (j + 1) m a1' j (h3 j) (j + 1) n) as [a2 hj]. cbn [fst snd] in *.
  assert (Nk : forall k, (j + 1 <= k < n)%nat -> k <> j) by (intros; lia).
  assert (Wa : forall k, (k < m)%nat -> get Col a1' j k = w k) by (intros; cbn; now rewrite A1).
  assert (Gd : (j <? j + 1)%nat && (j + 1 <? m)%nat = (j + 1 <? m)%nat).
  { destruct (Nat.ltb_spec j (j + 1)); [auto|lia]. }
  assert (SS : (j + 1 <? m)%nat = true -> sOf j (j + 1) m (get Col a1' j) = sOf j (j + 1) m w /\ get Col a1' j j = w j).
  { intros L. apply Nat.ltb_lt in L. split; [|apply Wa; lia]. unfold sOf. rewrite Wa by lia.
    replace (pivotNorm2 j (j + 1) m (get Col a1' j)) with (pivotNorm2 j (j + 1) m w); auto.
    unfold pivotNorm2. rewrite Wa by lia. f_equal. apply sum_ext. intros k Hk. rewrite Wa by lia. auto. }
  assert (G2 : forall i c, (i < m)%nat -> a2 i c =
      if (j + 1 <=? c)%nat && (c <? n)%nat then stepQ j (j + 1) m w (column a1 c) i
      else if Nat.eqb c j && Nat.eqb i j then sStep j m w else a1 i c).
  { intros i c Li. rewrite (G c i Nk). destruct ((j + 1 <=? c)%nat && (c <? n)%nat).
    - rewrite (stepQ_ext _ _ _ _ w) by (auto; lia).
      destruct (stepQ_orth j (j + 1) m w) as (Ex & _). apply Ex; auto. intros k Hk. unfold column. now apply A1.
    - rewrite Gd. destruct (Nat.eqb_spec c j) as [->|]; [|cbn; auto]. destruct (Nat.eqb_spec i j) as [->|]; [|cbn; auto]. cbn [andb].
      unfold sStep. destruct (j + 1 <? m)%nat eqn:L; [apply SS; auto|]. rewrite A1 by auto. reflexivity. }
  pose proof (fun k i => h2_get Col Col j (j + 1) m a2 j (updv h3 j hj j) (hb s) 0 nb w k i) as Gb. cbn [get] in Gb.
  destruct (householder Col Col H2 j (j + 1) m a2 j (updv h3 j hj j) (hb s) 0 nb) as [[v0 h0] b1]. cbn [snd] in Gb.
  cbn [hp ha hb hh]. split; [reflexivity|]. split; [|split; [exact G2|split]].
  - intros l Hl. rewrite <- Hn by auto. rewrite (tail_ext j m w (column (ha s) lam)) by (intros; apply Ww; lia).
    rewrite <- Hn by auto. now apply Hmax.
  - intros l i Ll Li. rewrite Gb.
    + replace ((0 <=? l)%nat && (l <? nb)%nat) with true by (symmetry; apply inRange; lia). reflexivity.
    + intros k Hk. rewrite G2 by lia. replace ((j + 1 <=? j)%nat && (j <? n)%nat) with false by (symmetry; apply inRange_false; lia).
      rewrite Nat.eqb_refl. destruct (Nat.eqb_spec k j); [lia|]. reflexivity.
    + rewrite Gd. intros L. destruct (SS L) as [S1 S2]. rewrite updv_get, Nat.eqb_refl, Gh, Gd, L.
      split; [|now rewrite S1, S2]. apply Nat.ltb_lt in L. rewrite G2 by lia.
      replace ((j + 1 <=? j)%nat && (j <? n)%nat) with false by (symmetry; apply inRange_false; lia).
      rewrite Nat.eqb_refl. cbn [andb]. unfold sStep. destruct (Nat.ltb_spec (j + 1) m); [auto|lia].
  - intros l Hl. rewrite updv_get. destruct (Nat.eqb_spec l j); [lia|]. rewrite H3 by lia.
    rewrite <- (stepQ_tail j j m w (column a1 l)) by lia. apply tail_ext. intros k Hk. unfold column at 2. rewrite G2 by lia.
    replace ((j + 1 <=? l)%nat && (l <? n)%nat) with true by (symmetry; apply inRange; lia). auto.
Qed.

(** ** The triangularisation *)
(** the upper triangular part: below the diagonal the processed columns of a hold the Householder vectors *)
Definition Rm (j : nat) (a : mat) : mat := fun i c => if (c <? j)%nat && (c <? i)%nat then 0 else a i c.
(** the columns of A after j interchanges *)
Definition permM (m j : nat) (p : nat -> nat) (A : mat) : mat := repeat j (fun i A => swapCols m A i (p i)) A.
Definition tr (j k c : nat) : nat := if Nat.eqb c j then k else if Nat.eqb c k then j else c.
Lemma permM_ext m j p q A : (forall i, (i < j)%nat -> p i = q i) -> permM m j p A = permM m j q A.
Proof. intros H. unfold permM. induction j; cbn; auto. rewrite IHj, H by (intros; try apply H; lia). auto. Qed.
Lemma permM_S m j p A i c : (i < m)%nat -> permM m (S j) p A i c = permM m j p A i (tr j (p j) c).
Proof. intros L. unfold permM at 1. cbn. rewrite swapCols_get by auto. unfold tr, permM. destruct (Nat.eqb c j); auto. destruct (Nat.eqb c (p j)); auto. Qed.

Lemma stepQ_zero p l m w x i : (p < m)%nat -> x p = 0 -> (forall k, (l <= k < m)%nat -> x k = 0) -> stepQ p l m w x i = x i.
Proof.
  intros Hp Zp Zk. unfold stepQ. destruct ((p <? l)%nat && (l <? m)%nat) eqn:G; auto.
  apply andb_true_iff in G. rewrite !Nat.ltb_lt in G. destruct (Req_EM_T _ 0); auto. unfold refl.
  rewrite dot_uvec by lia. rewrite Zp, sum_0; [unfold Rdiv; ring|]. intros k Hk. rewrite Zk by lia. ring.
Qed.

Definition inv (m n nb : nat) (A B : mat) (j : nat) (s : hstate) : Prop :=
  (exists Q Qi, orth m Q Qi /\
    (forall c i, (c < n)%nat -> (i < m)%nat -> Rm j (ha s) i c = Q (column (permM m j (hp s) A) c) i) /\
    (forall l i, (l < nb)%nat -> (i < m)%nat -> hb s i l = Q (column B l) i)) /\
  (forall i, (i < j)%nat -> (i <= hp s i < n)%nat) /\
  ((0 < j)%nat -> forall l, (j <= l < n)%nat -> hh s l = tail (j - 1) m (column (ha s) l)) /\
  (forall i c, (i < j)%nat -> (i <= c < n)%nat -> tail i m (column (Rm j (ha s)) c) <= ha s i i * ha s i i).

Lemma hLoop m n nb A B h p : (n <= m)%nat -> inv m n nb A B n (forUp 0 n (hStep m n nb) (mkH A B h p 0 0)).
Proof.
  intros Ln. apply (forUp_inv (inv m n nb A B)); [lia| |].
  - unfold inv. cbn. split; [|split; [|split]].
    + exists (fun x => x), (fun x => x). split; [apply orth_id|]. split; auto.
    + intros; lia.
    + intros; lia.
    + intros; lia.
  - intros j s Hj ((Q & Qi & Qo & QA & QB) & Hp & Hh & Ht).
    destruct (hStep_ok m n nb j s ltac:(lia) Ln Hh) as (lam & Llam & K). cbv zeta in K.
    set (s' := hStep m n nb j s) in *. destruct K as (Kp & Kmax & Ka & Kb & Kh).
    set (a1 := swapCols m (ha s) j lam) in *. set (w := column a1 j) in *.
    assert (Tr : forall c, (c < n)%nat -> (tr j lam c < n)%nat /\ ((c < j)%nat -> tr j lam c = c) /\ ((j <= c)%nat -> (j <= tr j lam c)%nat)).
    { intros c Hc. unfold tr. destruct (Nat.eqb_spec c j); [lia|]. destruct (Nat.eqb_spec c lam); lia. }
    assert (A1 : forall i c, (i < m)%nat -> a1 i c = ha s i (tr j lam c)).
    { intros i c Hi. unfold a1. rewrite swapCols_get by auto. unfold tr. destruct (Nat.eqb c j); auto. destruct (Nat.eqb c lam); auto. }
    assert (Wn : forall i, (i < m)%nat -> w i = ha s i lam).
    { intros i Hi. unfold w, column. rewrite A1 by auto. unfold tr. now rewrite Nat.eqb_refl. }
    destruct (stepQ_orth j (j + 1) m w) as (Sx & So). pose proof (stepQ_orth j (j + 1) m w) as SO.
    (* each column of the new triangle is the reflection of a column of the old one *)
    assert (Col : forall c i, (c < n)%nat -> (i < m)%nat ->
        Rm (S j) (ha s') i c = stepQ j (j + 1) m w (column (Rm j (ha s)) (tr j lam c)) i).
    { intros c i Hc Hi. unfold Rm at 1. rewrite Ka by auto. destruct (Tr c Hc) as (T1 & T2 & T3).
      destruct (Nat.ltb_spec c (S j)) as [Lc|Lc].
      - replace ((j + 1 <=? c)%nat && (c <? n)%nat) with false by (symmetry; apply inRange_false; lia).
        destruct (Nat.eq_dec c j) as [->|Ne].
        + rewrite Nat.eqb_refl. cbn [andb].
          assert (E : forall k, (k < m)%nat -> column (Rm j (ha s)) (tr j lam j) k = w k).
          { intros k Hk. rewrite Wn by auto. unfold column, Rm. unfold tr. rewrite Nat.eqb_refl.
            destruct (Nat.ltb_spec lam j); [lia|]. auto. }
          rewrite (Sx _ w) by auto. rewrite stepQ_pivot by lia.
          destruct (Nat.ltb_spec j i); [destruct (Nat.ltb_spec i j); [lia|]; destruct (Nat.eqb_spec i j); [lia|auto]|].
          destruct (Nat.ltb_spec i j); [|destruct (Nat.eqb_spec i j); [auto|lia]].
          destruct (Nat.eqb_spec i j); [lia|]. rewrite Wn, A1 by auto. unfold tr. now rewrite Nat.eqb_refl.
        + destruct (Nat.eqb_spec c j); [lia|]. cbn [andb]. rewrite A1, T2 by lia.
          rewrite stepQ_zero; [| lia | | ].
          * unfold column, Rm. destruct (Nat.ltb_spec c j); [auto|lia].
          * unfold column, Rm. destruct (Nat.ltb_spec c j); [auto|lia].
          * intros k Hk. unfold column, Rm. destruct (Nat.ltb_spec c j); [|lia]. destruct (Nat.ltb_spec c k); [auto|lia].
      - cbn [andb]. replace ((j + 1 <=? c)%nat && (c <? n)%nat) with true by (symmetry; apply inRange; lia).
        apply Sx; auto. intros k Hk. unfold column. rewrite A1 by auto. unfold Rm. destruct (Nat.ltb_spec (tr j lam c) j); [lia|auto]. }
    split; [|split; [|split]].
    + exists (fun x => stepQ j (j + 1) m w (Q x)), (fun x => Qi (stepQ j (j + 1) m w x)). split; [now apply orth_comp|]. split.
      * intros c i Hc Hi. rewrite Col by auto. apply Sx; auto. intros k Hk. unfold column at 1. rewrite QA by (auto; apply Tr; auto).
        destruct Qo as (Qx & _). apply Qx; auto. intros k' Hk'. unfold column. rewrite permM_S by auto. rewrite Kp.
        unfold updi at 2. rewrite Nat.eqb_refl.
        rewrite (permM_ext m j (updi (hp s) j lam) (hp s)); auto. intros q Hq. unfold updi. destruct (Nat.eqb_spec q j); [lia|auto].
      * intros l i Hl Hi. rewrite Kb by auto. apply Sx; auto. intros k Hk. unfold column at 1. now apply QB.
    + intros i Hi. rewrite Kp. unfold updi. destruct (Nat.eqb_spec i j); [subst; lia|]. apply Hp. lia.
    + intros _ l Hl. replace (S j - 1)%nat with j by lia. apply Kh. lia.
    + intros i c Hi Hc. rewrite (tail_ext i m _ (stepQ j (j + 1) m w (column (Rm j (ha s)) (tr j lam c)))) by (intros k Hk; apply Col; lia).
      destruct (Tr c ltac:(lia)) as (T1 & T2 & T3).
      rewrite stepQ_tail by lia. destruct (Nat.eq_dec i j) as [->|Ne].
      * rewrite Ka by lia. replace ((j + 1 <=? j)%nat && (j <? n)%nat) with false by (symmetry; apply inRange_false; lia).
        rewrite !Nat.eqb_refl. cbn [andb]. rewrite sStep_sq by lia. specialize (T3 ltac:(lia)).
        rewrite (tail_ext j m _ (column (ha s) (tr j lam c))); [apply Kmax; lia|].
        intros k Hk. unfold column, Rm. destruct (Nat.ltb_spec (tr j lam c) j); [lia|auto].
      * assert (Ei : ha s' i i = ha s i i).
        { rewrite Ka by lia. replace ((j + 1 <=? i)%nat && (i <? n)%nat) with false by (symmetry; apply inRange_false; lia).
          destruct (Nat.eqb_spec i j); [lia|]. cbn [andb]. rewrite A1 by lia. unfold tr.
          destruct (Nat.eqb_spec i j); [lia|]. destruct (Nat.eqb_spec i lam); [lia|auto]. }
        rewrite Ei. apply Ht; [lia|]. unfold tr in *. destruct (Nat.eqb_spec c j); [lia|]. destruct (Nat.eqb_spec c lam); lia.
Qed.
