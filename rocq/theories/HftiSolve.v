(** hfti computes least-squares solutions: pseudorank, row stage, back substitution, interchanges. *)
From Coq Require Import Reals ZArith Arith Bool Lia Lra.
From Verif Require Import LaSpec LaBase HhModel HhProofs HftiProofs.
Local Open Scope R_scope.

(** ** Interchanges *)
Lemma tr_tr j k c : tr j k (tr j k c) = c.
Proof.
  unfold tr. destruct (Nat.eqb_spec c j).
  - subst. destruct (Nat.eqb_spec k j); [auto|]. now rewrite Nat.eqb_refl.
  - destruct (Nat.eqb_spec c k); [subst; now rewrite Nat.eqb_refl|].
    destruct (Nat.eqb_spec c j); [contradiction|]. destruct (Nat.eqb_spec c k); [contradiction|auto].
Qed.
Lemma tr_lt j k c n : (j < n)%nat -> (k < n)%nat -> (c < n)%nat -> (tr j k c < n)%nat.
Proof. intros. unfold tr. destruct (Nat.eqb c j); auto. destruct (Nat.eqb c k); auto. Qed.
Lemma sum_tr n j k f : (j < n)%nat -> (k < n)%nat -> sum n (fun c => f (tr j k c)) = sum n f.
Proof.
  intros Hj Hk. destruct (Nat.eq_dec j k) as [->|N].
  - apply sum_ext. intros i _. unfold tr. destruct (Nat.eqb_spec i k); now subst.
  - rewrite (sum_at n k _ (fun i => if Nat.eqb i j then f k else f i)); auto.
    + rewrite (sum_at n j (fun i => if Nat.eqb i j then f k else f i) f); auto.
      * rewrite Nat.eqb_refl. unfold tr. rewrite Nat.eqb_refl. destruct (Nat.eqb_spec k j); [congruence|]. lra.
      * intros i _ Ni. destruct (Nat.eqb_spec i j); [contradiction|auto].
    + intros i _ Ni. unfold tr. destruct (Nat.eqb_spec i j); auto. destruct (Nat.eqb_spec i k); [contradiction|auto].
Qed.
Definition permV (j : nat) (p : nat -> nat) (x : vec) : vec := forDown j (fun i x => fun k => x (tr i (p i) k)) x.
Lemma forDown_S {T} j (f : nat -> T -> T) s : forDown (S j) f s = forDown j f (f j s).
Proof.
  unfold forDown. cut (forall k, (k <= j)%nat -> repeat (S k) (fun q => f (S j - 1 - q)%nat) s = repeat k (fun q => f (j - 1 - q)%nat) (f j s)).
  - intros H. apply H. lia.
  - induction k; intros L; cbn [repeat].
    + now replace (S j - 1 - 0)%nat with j by lia.
    + cbn [repeat] in IHk. rewrite <- IHk by lia. replace (S j - 1 - S k)%nat with (j - 1 - k)%nat by lia. auto.
Qed.
Lemma perm_apply m n A p x i : (i < m)%nat -> forall j, (j <= n)%nat -> (forall q, (q < j)%nat -> (q <= p q < n)%nat) ->
  apply n (permM m j p A) x i = apply n A (permV j p x) i.
Proof.
  intros Hi. intros j. revert x. induction j; intros x Lj Hp; auto.
  unfold permV. rewrite forDown_S. fold (permV j p (fun k => x (tr j (p j) k))). rewrite <- IHj by (auto; lia).
  unfold apply. specialize (Hp j ltac:(lia)).
  rewrite <- (sum_tr n j (p j) (fun c => permM m j p A i c * x (tr j (p j) c))) by lia.
  apply sum_ext. intros c Hc. rewrite permM_S by auto. now rewrite tr_tr.
Qed.
Lemma permV_norm n p x : forall j, (j <= n)%nat -> (forall q, (q < j)%nat -> (q <= p q < n)%nat) -> norm2 n (permV j p x) = norm2 n x.
Proof.
  intros j. revert x. induction j; intros x Lj Hp; auto. unfold permV. rewrite forDown_S. fold (permV j p (fun k => x (tr j (p j) k))).
  rewrite IHj by (auto; lia). unfold norm2, dot. specialize (Hp j ltac:(lia)). now rewrite (sum_tr n j (p j) (fun c => x c * x c)) by lia.
Qed.
Lemma permV_ext j p x y : (forall i, x i = y i) -> forall i, permV j p x i = permV j p y i.
Proof. revert x y. induction j; intros x y H; auto. unfold permV. rewrite !forDown_S. apply IHj. intros; apply H. Qed.
Lemma permV_extn n j p x y : (j <= n)%nat -> (forall q, (q < j)%nat -> (q <= p q < n)%nat) ->
  (forall i, (i < n)%nat -> x i = y i) -> forall i, (i < n)%nat -> permV j p x i = permV j p y i.
Proof.
  intros Lj Hp. revert x y Lj Hp. induction j; intros x y Lj Hp H i Hi; auto. unfold permV. rewrite !forDown_S. apply IHj; auto; try lia.
  - intros k Hk. apply H. specialize (Hp j ltac:(lia)). apply tr_lt; lia.
Qed.
(** every vector is the interchange of some vector *)
Lemma permV_onto j p x : exists y, forall i, permV j p y i = x i.
Proof.
  revert x. induction j; intros x; [now exists x|]. destruct (IHj x) as [y Hy].
  exists (fun k => y (tr j (p j) k)). intros i. unfold permV. rewrite forDown_S. rewrite <- Hy. apply permV_ext.
  intros k. now rewrite tr_tr.
Qed.
Lemma permM_onto m j p T : exists A, forall i c, (i < m)%nat -> permM m j p A i c = T i c.
Proof.
  revert T. induction j; intros T; [now exists T|]. destruct (IHj (fun i c => T i (tr j (p j) c))) as [A HA].
  exists A. intros i c Hi. rewrite permM_S, HA by auto. now rewrite tr_tr.
Qed.
Lemma permM_col m n p j : (j <= n)%nat -> (forall q, (q < j)%nat -> (q <= p q < n)%nat) ->
  forall c, (c < n)%nat -> exists c', (c' < n)%nat /\ forall A i, (i < m)%nat -> permM m j p A i c' = A i c.
Proof.
  induction j; intros Lj Hp c Hc; [exists c; auto|]. destruct (IHj ltac:(lia) ltac:(auto) c Hc) as (c' & L & H).
  exists (tr j (p j) c'). specialize (Hp j ltac:(lia)). split; [apply tr_lt; lia|].
  intros A i Hi. rewrite permM_S, tr_tr by auto. now apply H.
Qed.
Lemma unpermute_col n nb p b l : (l < nb)%nat -> forall i, unpermute n nb p b i l = permV n p (column b l) i.
Proof.
  intros Hl. unfold unpermute. revert b. induction n; intros b i; [reflexivity|].
  unfold permV. rewrite !forDown_S. rewrite IHn. apply permV_ext. intros k. unfold column, tr.
  destruct (Nat.eqb_spec (p n) n) as [->|N].
  - destruct (Nat.eqb_spec k n); now subst.
  - destruct (Nat.ltb_spec l nb); [|lia]. destruct (Nat.eqb k n); auto. destruct (Nat.eqb k (p n)); auto.
Qed.

(** ** The pseudorank *)
Lemma pseudorank_ok n a tau : (forall i c, (i <= c < n)%nat -> Rabs (a c c) <= Rabs (a i i)) ->
  (pseudorank n a tau <= n)%nat /\ forall q, (q < n)%nat -> ((q < pseudorank n a tau)%nat <-> tau < Rabs (a q q)).
Proof.
  intros Mono. unfold pseudorank.
  apply (forUp_inv (fun i k => (k <= i)%nat /\ forall q, (q < i)%nat -> ((q < k)%nat <-> tau < Rabs (a q q)))); [lia| |].
  - split; auto. intros; lia.
  - intros i k Hi [L H]. destruct (Rlt_dec tau (Rabs (a i i))) as [P|P].
    + assert (k = i).
      { destruct (Nat.eq_dec k i); auto. assert (Lk : (k < i)%nat) by lia. exfalso.
        specialize (Mono k i ltac:(lia)). assert (T : (k < k)%nat) by (apply H; auto; lra). lia. }
      subst. split; [lia|]. intros q Hq. destruct (Nat.eq_dec q i); [subst; split; auto; lia|]. rewrite <- H by lia. lia.
    + split; [lia|]. intros q Hq. destruct (Nat.eq_dec q i); [subst; split; [lia|intros; contradiction]|]. apply H. lia.
Qed.

(** ** Back substitution *)
Lemma backInner a l i k b : (i < k)%nat -> forall r c,
  forUp (i + 1) k (fun j b => put Col b l i (b i l - a i j * b j l)) b r c =
  if Nat.eqb r i && Nat.eqb c l then b i l - sum (k - (i + 1)) (fun q => a i (i + 1 + q)%nat * b (i + 1 + q)%nat l) else b r c.
Proof.
  intros L. apply (forUp_inv (fun t b' => forall r c, b' r c =
    if Nat.eqb r i && Nat.eqb c l then b i l - sum (t - (i + 1)) (fun q => a i (i + 1 + q)%nat * b (i + 1 + q)%nat l) else b r c)); [lia| |].
  - intros r c. rewrite Nat.sub_diag. cbn. destruct (Nat.eqb_spec r i); destruct (Nat.eqb_spec c l); subst; cbn; auto. lra.
  - intros j b' Hj H r c. unfold put. destruct (Nat.eqb_spec r i); destruct (Nat.eqb_spec c l); subst; cbn [andb].
    + rewrite !H, !Nat.eqb_refl. cbn [andb]. destruct (Nat.eqb_spec j i); [lia|]. cbn [andb].
      replace (S j - (i + 1))%nat with (S (j - (i + 1))) by lia. cbn. replace (i + 1 + (j - (i + 1)))%nat with j by lia. lra.
    + rewrite H. destruct (Nat.eqb_spec c l); [contradiction|]. now rewrite andb_false_r.
    + rewrite H. destruct (Nat.eqb_spec r i); [contradiction|]. auto.
    + rewrite H. destruct (Nat.eqb_spec r i); [contradiction|]. auto.
Qed.
Lemma backsub_ok k n a b l : (0 < k)%nat -> (k <= n)%nat -> (forall r, (r < k)%nat -> a r r <> 0) ->
  let b' := backsub k n a b l in
  (forall r, (r < k)%nat -> sum (k - r) (fun q => a r (r + q)%nat * b' (r + q)%nat l) = b r l) /\
  (forall r, (k <= r < n)%nat -> b' r l = 0) /\ (forall r c, c <> l -> b' r c = b r c).
Proof.
  intros Hk Hkn Hd b'. unfold backsub in b'.
  set (b0 := put Col b l (k - 1)%nat (b (k - 1)%nat l / a (k - 1)%nat (k - 1)%nat)) in b'.
  set (b1 := forDown (k - 1)%nat _ b0) in b'.
  assert (K : (forall r, (r < k)%nat -> sum (k - r) (fun q => a r (r + q)%nat * b1 (r + q)%nat l) = b r l) /\ (forall r c, c <> l -> b1 r c = b r c)).
  { unfold b1.
    pose proof (forDown_inv (fun i b' => (forall r, (i <= r < k)%nat -> sum (k - r) (fun q => a r (r + q)%nat * b' (r + q)%nat l) = b r l) /\
       (forall r, (r < i)%nat -> b' r l = b r l) /\ (forall r c, c <> l -> b' r c = b r c)) (k - 1)
      (fun i b => let b' := forUp (i + 1) k (fun j b => put Col b l i (b i l - a i j * b j l)) b in put Col b' l i (b' i l / a i i)) b0) as F.
    cbn beta in F. destruct F as (F1 & _ & F3).
    - split; [|split].
      + intros r Hr. replace r with (k - 1)%nat by lia. replace (k - (k - 1))%nat with 1%nat by lia. cbn. rewrite Nat.add_0_r.
        unfold b0, put. rewrite !Nat.eqb_refl. cbn [andb]. field. apply Hd. lia.
      + intros r Hr. unfold b0, put. destruct (Nat.eqb_spec r (k - 1)); [lia|auto].
      + intros r c Hc. unfold b0, put. destruct (Nat.eqb_spec c l); [contradiction|]. now rewrite andb_false_r.
    - intros i s Hi (E1 & E2 & E3). cbv zeta. set (s' := forUp (i + 1) k _ s).
      assert (S' : forall r c, s' r c = if Nat.eqb r i && Nat.eqb c l then s i l - sum (k - (i + 1)) (fun q => a i (i + 1 + q)%nat * s (i + 1 + q)%nat l) else s r c)
        by (apply backInner; lia).
      assert (P : forall r, (r <> i)%nat -> put Col s' l i (s' i l / a i i) r l = s r l).
      { intros r N. unfold put. destruct (Nat.eqb_spec r i); [contradiction|]. cbn [andb]. rewrite S'. destruct (Nat.eqb_spec r i); [contradiction|auto]. }
      assert (Pi : put Col s' l i (s' i l / a i i) i l = (s i l - sum (k - (i + 1)) (fun q => a i (i + 1 + q)%nat * s (i + 1 + q)%nat l)) / a i i).
      { unfold put. rewrite !Nat.eqb_refl. cbn [andb]. rewrite S', !Nat.eqb_refl. auto. }
      split; [|split].
      + intros r Hr. destruct (Nat.eq_dec r i) as [->|N].
        * rewrite (sum_split (k - i) 1) by lia. cbn [sum]. rewrite Nat.add_0_r, Pi, E2 by lia.
          replace (k - i - 1)%nat with (k - (i + 1))%nat by lia.
          rewrite (sum_ext (k - (i + 1)) (fun q => a i (i + (1 + q))%nat * put Col s' l i (s' i l / a i i) (i + (1 + q))%nat l) (fun q => a i (i + 1 + q)%nat * s (i + 1 + q)%nat l)).
          -- field. apply Hd. lia.
          -- intros q Hq. rewrite P by lia. now rewrite Nat.add_assoc.
        * rewrite <- E1 by lia. apply sum_ext. intros q Hq. rewrite P by lia. auto.
      + intros r Hr. rewrite P by lia. apply E2. lia.
      + intros r c Hc. unfold put. destruct (Nat.eqb_spec c l); [contradiction|]. rewrite andb_false_r, S'.
        destruct (Nat.eqb_spec c l); [contradiction|]. rewrite andb_false_r. auto.
    - split; [|exact F3]. intros r Hr. apply F1. lia. }
  destruct K as [K1 K2].
  assert (Z : forall r c, b' r c = if (k <=? r)%nat && (r <? n)%nat && Nat.eqb c l then 0 else b1 r c).
  { unfold b'. destruct (Nat.ltb_spec k n) as [L|L].
    - apply (forUp_inv (fun t b2 => forall r c, b2 r c = if (k <=? r)%nat && (r <? t)%nat && Nat.eqb c l then 0 else b1 r c)); [lia| |].
      + intros r c. replace ((k <=? r)%nat && (r <? k)%nat) with false by (symmetry; apply inRange_false; lia). auto.
      + intros t b2 Ht H r c. unfold put. rewrite H. destruct (Nat.eqb_spec c l); [|now rewrite !andb_false_r].
        rewrite !andb_true_r. destruct (Nat.eqb_spec r t).
        * subst. replace ((k <=? t)%nat && (t <? S t)%nat) with true by (symmetry; apply inRange; lia). auto.
        * destruct ((k <=? r)%nat && (r <? t)%nat) eqn:E; [apply inRange in E|apply inRange_false in E].
          -- replace ((k <=? r)%nat && (r <? S t)%nat) with true by (symmetry; apply inRange; lia). auto.
          -- replace ((k <=? r)%nat && (r <? S t)%nat) with false by (symmetry; apply inRange_false; lia). auto.
    - intros r c. replace ((k <=? r)%nat && (r <? n)%nat) with false by (symmetry; apply inRange_false; lia). auto. }
  split; [|split].
  - intros r Hr. rewrite <- K1 by auto. apply sum_ext. intros q Hq. rewrite Z.
    replace ((k <=? r + q)%nat && (r + q <? n)%nat) with false by (symmetry; apply inRange_false; lia). auto.
  - intros r Hr. rewrite Z, Nat.eqb_refl. replace ((k <=? r)%nat && (r <? n)%nat) with true by (symmetry; apply inRange; lia). auto.
  - intros r c Hc. rewrite Z. destruct (Nat.eqb_spec c l); [contradiction|]. rewrite andb_false_r. now apply K2.
Qed.

(** ** The row stage, when k < n *)
Lemma forUp_front {T} lo hi (f : nat -> T -> T) s : (lo < hi)%nat -> forUp lo hi f s = forUp (S lo) hi f (f lo s).
Proof.
  intros L. unfold forUp. replace (hi - lo)%nat with (S (hi - S lo)) by lia. generalize (hi - S lo)%nat as q.
  induction q; cbn [repeat].
  - now rewrite Nat.add_0_r.
  - cbn [repeat] in IHq. rewrite IHq. now replace (lo + S q)%nat with (S lo + q)%nat by lia.
Qed.
Lemma stepQ_local p l m w x x' c : (p < m)%nat -> x c = x' c -> x p = x' p -> (forall k, (l <= k < m)%nat -> x k = x' k) ->
  stepQ p l m w x c = stepQ p l m w x' c.
Proof.
  intros Hp Hc Hx Hk. unfold stepQ. destruct ((p <? l)%nat && (l <? m)%nat) eqn:G; auto.
  apply andb_true_iff in G. rewrite !Nat.ltb_lt in G. destruct (Req_EM_T _ 0); auto. unfold refl. rewrite Hc.
  rewrite !dot_uvec by lia. rewrite Hx. do 4 f_equal. apply sum_ext. intros q Hq. rewrite Hk by lia. auto.
Qed.
Lemma stepQ_adj p l m w x y : dot m (stepQ p l m w x) y = dot m x (stepQ p l m w y).
Proof.
  unfold stepQ. destruct ((p <? l)%nat && (l <? m)%nat); auto. destruct (Req_EM_T _ 0); auto. unfold refl.
  rewrite dot_plus_scal. symmetry. rewrite dot_sym, dot_plus_scal, (dot_sym m y x). unfold Rdiv. ring.
Qed.
Lemma sOf_ext p l m w w' : w p = w' p -> (forall i, (l <= i < m)%nat -> w i = w' i) -> sOf p l m w = sOf p l m w'.
Proof.
  intros Hp Hi. unfold sOf. rewrite Hp. replace (pivotNorm2 p l m w') with (pivotNorm2 p l m w); auto.
  unfold pivotNorm2. rewrite Hp. f_equal. apply sum_ext. intros k Hk. rewrite Hi by lia. auto.
Qed.
Definition rowStage (k n : nat) (a : mat) (g : vec) : mat * vec :=
  forDown k (fun i ag => let '(a', g') := householderSelf Row Row i k n (fst ag) i (snd ag i) 0 i in (a', updv (snd ag) i g')) (a, g).
Definition upper (a : mat) (r c : nat) : R := if (c <? r)%nat then 0 else a r c.
Definition Wm (k i : nat) (a : mat) (r c : nat) : R := if (c <? r)%nat then 0 else if (i <=? r)%nat && (k <=? c)%nat then 0 else a r c.
Definition Kops (k n : nat) (wf : nat -> vec) (i : nat) (y : vec) : vec := forUp i k (fun r y => stepQ r k n (wf r) y) y.
Lemma Kops_orth k n wf i : (i <= k)%nat -> exists Ki, orth n (Kops k n wf i) Ki.
Proof.
  intros L. unfold Kops, forUp. generalize (k - i)%nat as q. induction q; cbn [repeat].
  - exists (fun x => x). apply orth_id.
  - destruct IHq as [Ki H]. exists (fun x => Ki (stepQ (i + q) k n (wf (i + q)%nat) x)).
    apply (orth_comp n _ Ki _ _ H (stepQ_orth (i + q) k n (wf (i + q)%nat))).
Qed.
Definition rinv (k n : nat) (a0 : mat) (i : nat) (ag : mat * vec) : Prop :=
  (forall r, (r < i)%nat -> fst ag r r = a0 r r) /\
  (forall r, (i <= r < k)%nat -> a0 r r * a0 r r <= fst ag r r * fst ag r r) /\
  exists wf, (forall r, (i <= r < k)%nat -> (forall c, (k <= c < n)%nat -> fst ag r c = wf r c) /\
      fst ag r r = sOf r k n (wf r) /\ snd ag r = wf r r - sOf r k n (wf r)) /\
    (forall r y, (r < k)%nat -> dot n (upper a0 r) (Kops k n wf i y) = dot n (Wm k i (fst ag) r) y).
Lemma rowStage_ok k n a g : (k < n)%nat -> rinv k n a 0 (rowStage k n a g).
Proof.
  intros Lk. unfold rowStage. apply (forDown_inv (rinv k n a)).
  - unfold rinv. cbn [fst snd]. split; [auto|split; [intros; lia|]]. exists (fun _ _ => 0). split; [intros; lia|].
    intros r y Hr. unfold Kops. rewrite forUp_empty by lia. apply dot_ext; auto. intros c Hc. unfold upper, Wm.
    destruct (Nat.leb_spec k r); [lia|auto].
  - intros i [a1 g1] Hi (D1 & D2 & wf & E1 & E2). cbn [fst snd] in *.
    pose proof (fun r c H => self_get Row i k n a1 i (g1 i) 0 i r c H) as G. cbn [get] in G.
    pose proof (self_h Row i k n a1 i (g1 i) 0 i) as Gh.
    destruct (householderSelf Row Row i k n a1 i (g1 i) 0 i) as [a2 gi]. cbn [fst snd] in *.
    assert (Gd : (i <? k)%nat && (k <? n)%nat = true) by (apply andb_true_iff; rewrite !Nat.ltb_lt; lia).
    rewrite Gd in *. assert (Nk : forall q, (0 <= q < i)%nat -> q <> i) by (intros; lia).
    set (w := a1 i) in *. change (get Row a1 i) with w in *.
    assert (G1 : forall r c, a2 r c = if (r <? i)%nat then stepQ i k n w (a1 r) c else if Nat.eqb r i && Nat.eqb c i then sOf i k n w else a1 r c).
    { intros r c. rewrite (G r c Nk). rewrite andb_true_r. destruct (Nat.ltb_spec r i).
      - replace ((0 <=? r)%nat && true) with true; auto.
      - now rewrite andb_false_r. }
    assert (Dg : forall r, (r < i)%nat -> a2 r r = a1 r r).
    { intros r Hr. rewrite G1. destruct (Nat.ltb_spec r i); [|lia]. apply stepQ_out; lia. }
    assert (Rg : forall r c, (i < r)%nat -> a2 r c = a1 r c).
    { intros r c Hr. rewrite G1. destruct (Nat.ltb_spec r i); [lia|]. destruct (Nat.eqb_spec r i); [lia|auto]. }
    assert (Ri : forall c, a2 i c = if Nat.eqb c i then sOf i k n w else a1 i c).
    { intros c. rewrite G1. destruct (Nat.ltb_spec i i); [lia|]. now rewrite Nat.eqb_refl. }
    unfold rinv. cbn [fst snd]. split; [|split].
    + intros r Hr. rewrite Dg by auto. apply D1. lia.
    + intros r Hr. destruct (Nat.eq_dec r i) as [->|N].
      * rewrite Ri, Nat.eqb_refl, sOf_sq. rewrite <- (D1 i ltac:(lia)). unfold pivotNorm2. fold w.
        assert (0 <= sum (n - k) (fun q => w (k + q)%nat * w (k + q)%nat)) by (apply sum_pos; intros; nra). lra.
      * rewrite Rg by lia. apply D2. lia.
    + set (wf' := fun r => if Nat.eqb r i then w else wf r). exists wf'. split.
      * intros r Hr. unfold wf'. destruct (Nat.eqb_spec r i) as [->|N].
        -- split; [|split].
           ++ intros c Hc. rewrite Ri. destruct (Nat.eqb_spec c i); [lia|]. auto.
           ++ now rewrite Ri, Nat.eqb_refl.
           ++ unfold updv. rewrite Nat.eqb_refl. exact Gh.
        -- destruct (E1 r ltac:(lia)) as (F1 & F2 & F3). split; [|split].
           ++ intros c Hc. rewrite Rg by lia. auto.
           ++ rewrite Rg by lia. auto.
           ++ unfold updv. destruct (Nat.eqb_spec r i); [contradiction|auto].
      * intros r y Hr.
        assert (KS : Kops k n wf' i y = Kops k n wf (S i) (stepQ i k n w y)).
        { unfold Kops. rewrite forUp_front by lia. unfold wf' at 2. rewrite Nat.eqb_refl.
          unfold forUp. generalize (stepQ i k n w y) as z. intros z. 
          assert (forall q, (q <= k - S i)%nat -> repeat q (fun k0 => stepQ (S i + k0)%nat k n (wf' (S i + k0)%nat)) z = repeat q (fun k0 => stepQ (S i + k0)%nat k n (wf (S i + k0)%nat)) z) as Q.
          { induction q; intros Lq; cbn [repeat]; auto. rewrite IHq by lia. unfold wf'. destruct (Nat.eqb_spec (S i + q) i); [lia|auto]. }
          apply Q. lia. }
        rewrite KS, E2 by auto. rewrite <- stepQ_adj. apply dot_ext; auto. intros c Hc.
        destruct (lt_eq_lt_dec r i) as [[L|L]|L].
        -- (* r < i *)
           assert (X : stepQ i k n w (Wm k (S i) a1 r) c = if (c <? r)%nat then 0 else stepQ i k n w (a1 r) c).
           { destruct (Nat.ltb_spec c r).
             - rewrite stepQ_out by lia. unfold Wm. destruct (Nat.ltb_spec c r); [auto|lia].
             - apply stepQ_local; [lia| | |].
               + unfold Wm. destruct (Nat.ltb_spec c r); [lia|]. destruct (Nat.leb_spec (S i) r); [lia|auto].
               + unfold Wm. destruct (Nat.ltb_spec i r); [lia|]. destruct (Nat.leb_spec (S i) r); [lia|auto].
               + intros q Hq. unfold Wm. destruct (Nat.ltb_spec q r); [lia|]. destruct (Nat.leb_spec (S i) r); [lia|auto]. }
           rewrite X. unfold Wm. destruct (Nat.ltb_spec c r); auto. destruct (Nat.leb_spec i r); [lia|]. cbn [andb].
           rewrite G1. destruct (Nat.ltb_spec r i); [auto|lia].
        -- (* r = i *)
           subst r. destruct (stepQ_pivot_gen i k n w) as [P1 P2]; try lia.
           assert (X : (i <= c)%nat -> stepQ i k n w (Wm k (S i) a1 i) c = stepQ i k n w w c).
           { intros Lc. apply stepQ_local; [lia| | |].
             - unfold Wm. destruct (Nat.ltb_spec c i); [lia|]. destruct (Nat.leb_spec (S i) i); [lia|auto].
             - unfold Wm. destruct (Nat.ltb_spec i i); [lia|]. destruct (Nat.leb_spec (S i) i); [lia|auto].
             - intros q Hq. unfold Wm. destruct (Nat.ltb_spec q i); [lia|]. destruct (Nat.leb_spec (S i) i); [lia|auto]. }
           unfold Wm at 2. destruct (Nat.ltb_spec c i).
           ++ rewrite stepQ_out by lia. unfold Wm. destruct (Nat.ltb_spec c i); [auto|lia].
           ++ rewrite X by auto. destruct (Nat.leb_spec i i); [|lia]. cbn [andb]. destruct (Nat.leb_spec k c).
              ** apply P2. lia.
              ** rewrite Ri. destruct (Nat.eqb_spec c i); [now subst|]. apply stepQ_out; lia.
        -- (* r > i *)
           rewrite stepQ_zero.
           ++ unfold Wm. destruct (Nat.leb_spec (S i) r); [|lia]. destruct (Nat.leb_spec i r); [|lia]. destruct (c <? r)%nat; auto. cbn [andb].
              destruct (k <=? c)%nat; auto. now rewrite Rg.
           ++ lia.
           ++ unfold Wm. destruct (Nat.ltb_spec i r); [auto|lia].
           ++ intros q Hq. unfold Wm. destruct (Nat.ltb_spec q r); [auto|]. destruct (Nat.leb_spec (S i) r); [|lia]. destruct (Nat.leb_spec k q); [auto|lia].
Qed.

(** ** Assembly *)
Lemma stepQ_pt p l m w x x' i : (p < m)%nat -> (forall k, x k = x' k) -> stepQ p l m w x i = stepQ p l m w x' i.
Proof. intros Hp H. apply stepQ_local; auto. Qed.
Lemma backsub_all k n nb a b : (0 < k)%nat -> (k <= n)%nat -> (forall r, (r < k)%nat -> a r r <> 0) ->
  let b' := forUp 0 nb (fun l b => backsub k n a b l) b in forall l, (l < nb)%nat ->
  (forall r, (r < k)%nat -> sum (k - r) (fun q => a r (r + q)%nat * b' (r + q)%nat l) = b r l) /\ (forall r, (k <= r < n)%nat -> b' r l = 0).
Proof.
  intros Hk Hn Hd b'.
  pose proof (forUp_inv (fun t b' => (forall l, (t <= l)%nat -> forall r, b' r l = b r l) /\ forall l, (l < t)%nat ->
    (forall r, (r < k)%nat -> sum (k - r) (fun q => a r (r + q)%nat * b' (r + q)%nat l) = b r l) /\ (forall r, (k <= r < n)%nat -> b' r l = 0))
    0 nb (fun l b => backsub k n a b l) b) as F. cbn beta in F. destruct F as [_ F]; [lia| | |].
  - split; auto. intros; lia.
  - intros i b1 Hi [E1 E2]. destruct (backsub_ok k n a b1 i Hk Hn Hd) as (G1 & G2 & G3). split.
    + intros l Hl r. rewrite G3 by lia. apply E1. lia.
    + intros l Hl. destruct (Nat.eq_dec l i) as [->|N].
      * split; auto. intros r Hr. rewrite G1 by auto. apply E1. lia.
      * destruct (E2 l ltac:(lia)) as [H1 H2]. split.
        -- intros r Hr. rewrite <- H1 by auto. apply sum_ext. intros q Hq. now rewrite G3.
        -- intros r Hr. rewrite G3 by auto. auto.
  - intros l Hl. apply F; auto.
Qed.
Lemma colStage_ok k n nb a g wf b : (k < n)%nat ->
  (forall r, (r < k)%nat -> (forall c, (k <= c < n)%nat -> a r c = wf r c) /\ a r r = sOf r k n (wf r) /\ g r = wf r r - sOf r k n (wf r)) ->
  forall l, (l < nb)%nat -> forall i,
  forUp 0 k (fun i b => let '(_, _, b') := householder Row Col H2 i k n a i (g i) b 0 nb in b') b i l = Kops k n wf 0 (column b l) i.
Proof.
  intros Lk Hw l Hl. unfold Kops, forUp. rewrite !Nat.sub_0_r. cbn [Nat.add].
  assert (Q : forall t, (t <= k)%nat -> forall i, repeat t (fun k0 b => let '(_, _, b') := householder Row Col H2 k0 k n a k0 (g k0) b 0 nb in b') b i l =
    repeat t (fun k0 => stepQ k0 k n (wf k0)) (column b l) i).
  { induction t; intros Lt i; cbn [repeat]; auto.
    set (bt := repeat t _ b) in *. destruct (Hw t ltac:(lia)) as (W1 & W2 & W3).
    pose proof (h2_get Row Col t k n a t (g t) bt 0 nb (wf t) l i) as G.
    destruct (householder Row Col H2 t k n a t (g t) bt 0 nb) as [[v0 h0] b0]. cbn [snd get] in G. rewrite G.
    - replace ((0 <=? l)%nat && (l <? nb)%nat) with true by (symmetry; apply inRange; lia).
      apply stepQ_pt; [lia|]. intros q. apply IHt. lia.
    - intros c Hc. apply W1. lia.
    - intros _. auto. }
  apply Q. lia.
Qed.
Lemma tri_unique k (a : mat) d : (forall r, (r < k)%nat -> a r r <> 0) ->
  (forall r, (r < k)%nat -> sum (k - r) (fun q => a r (r + q)%nat * d (r + q)%nat) = 0) -> forall r, (r < k)%nat -> d r = 0.
Proof.
  intros Hd H.
  assert (Q : forall t r, (k - r <= t)%nat -> (r < k)%nat -> d r = 0).
  { induction t; intros r Lt Lr; [lia|]. pose proof (H r Lr) as E. rewrite (sum_split (k - r) 1) in E by lia. cbn [sum] in E.
    rewrite (sum_0 (k - r - 1)) in E.
    - rewrite Nat.add_0_r in E. assert (a r r * d r = 0) by lra. apply Rmult_integral in H0. destruct H0; auto. now apply Hd in H0.
    - intros i Hi. rewrite IHt by lia. ring. }
  intros r Hr. apply (Q k); auto. lia.
Qed.
Lemma Q_comb m Q Qi M (x b : vec) : orth m Q Qi -> forall n i, (i < m)%nat ->
  Q (fun i => sum n (fun j => M i j * x j) - b i) i = sum n (fun c => Q (column M c) i * x c) - Q b i.
Proof.
  intros (Qx & _ & Ql & _). intros n. induction n; intros i Hi; cbn [sum].
  - rewrite (Qx _ (fun k => b k + -2 * b k)) by (auto; intros; lra). rewrite Ql by auto. lra.
  - rewrite (Qx _ (fun k => (sum n (fun j => M k j * x j) - b k) + x n * column M n k)) by (auto; intros; unfold column; lra).
    rewrite Ql, IHn by auto. lra.
Qed.

(** the facts about the system in triangular form from which the theorem follows *)
Definition solved (n k : nat) (U : nat -> vec) (c x0 : vec) : Prop :=
  exists K Ki (W : nat -> vec) yb, orth n K Ki /\ (forall i, (i < n)%nat -> x0 i = K yb i) /\
    (forall r y, (r < k)%nat -> dot n (U r) (K y) = dot n (W r) y) /\
    (forall r y, (r < k)%nat -> dot n (W r) y = sum (k - r) (fun q => W r (r + q)%nat * y (r + q)%nat)) /\
    (forall r, (r < k)%nat -> W r r <> 0) /\ (forall r, (r < k)%nat -> dot n (W r) yb = c r) /\
    (forall i, (k <= i < n)%nat -> yb i = 0).
Lemma solved_eq n k U c x0 : solved n k U c x0 -> forall r, (r < k)%nat -> dot n (U r) x0 = c r.
Proof.
  intros (K & Ki & W & yb & Ko & Hx & HU & HW & Hd & Hy & Hz) r Hr. rewrite <- Hy by auto. rewrite <- HU by auto. now apply dot_ext.
Qed.
Lemma solved_short n k U c x0 : (k <= n)%nat -> solved n k U c x0 -> forall z, (forall r, (r < k)%nat -> dot n (U r) z = c r) -> norm2 n x0 <= norm2 n z.
Proof.
  intros Lk (K & Ki & W & yb & (Kx & Kix & Kl & Kn & Kinv) & Hx & HU & HW & Hd & Hy & Hz) z Ez.
  rewrite (norm2_ext n x0 (K yb)) by auto. rewrite Kn.
  assert (Zz : norm2 n z = norm2 n (Ki z)). { rewrite <- (Kn (Ki z)). apply norm2_ext. intros i Hi. symmetry. now apply Kinv. }
  rewrite Zz. set (y := Ki z).
  assert (Ey : forall r, (r < k)%nat -> dot n (W r) y = c r).
  { intros r Hr. rewrite <- HU by auto. rewrite <- Ez by auto. apply dot_ext; auto. intros i Hi. now apply Kinv. }
  assert (Same : forall r, (r < k)%nat -> y r - yb r = 0).
  { apply (tri_unique k (fun r c => W r c) (fun i => y i - yb i)); auto. intros r Hr.
    rewrite (sum_ext (k - r) _ (fun q => W r (r + q)%nat * y (r + q)%nat - W r (r + q)%nat * yb (r + q)%nat)) by (intros; ring).
    rewrite sum_minus, <- !HW by auto. rewrite Ey, Hy by auto. ring. }
  unfold norm2, dot. rewrite !(sum_split n k) by auto.
  rewrite (sum_ext k (fun i => y i * y i) (fun i => yb i * yb i)) by (intros i Hi; specialize (Same i Hi); replace (y i) with (yb i) by lra; auto).
  rewrite (sum_0 (n - k) (fun i => yb (k + i)%nat * yb (k + i)%nat)) by (intros i Hi; rewrite Hz by lia; ring).
  assert (0 <= sum (n - k) (fun i => y (k + i)%nat * y (k + i)%nat)) by (apply sum_pos; intros; nra). lra.
Qed.

Theorem hfti_ok A m n B nb tau rn h g p : (n <= m)%nat -> 0 <= tau ->
  let o := hfti A m n B nb tau rn h g p in
  exists A' : mat,
    (forall c, (c < n)%nat -> norm2 m (fun i => A' i c - A i c) <= tau * tau) /\
    (ok o = n -> forall i c, (i < m)%nat -> (c < n)%nat -> A' i c = A i c) /\
    forall l, (l < nb)%nat ->
      shortest_least_squares m n A' (column B l) (column (ob o) l) /\
      ornorm o l = sqrt (residual2 m n A' (column (ob o) l) (column B l)) /\
      (ok o = m -> ornorm o l = 0).
Proof.
  intros Ln Ht. cbv zeta. unfold hfti. set (s := forUp 0 n (hStep m n nb) (mkH A B h p 0 0)).
  pose proof (hLoop m n nb A B h p Ln) as I. fold s in I. destruct I as ((Q & Qi & Qo & QA & QB) & Hp & _ & Htail).
  destruct (Rlt_dec tau 0) as [?|_]; [lra|]. set (a := ha s) in *. set (k := pseudorank n a tau).
  assert (Mono : forall i c, (i <= c < n)%nat -> Rabs (a c c) <= Rabs (a i i)).
  { intros i c Hc. apply Rsqr_le_abs_0. unfold Rsqr. eapply Rle_trans; [|apply (Htail i c); lia].
    unfold tail.
    replace (a c c * a c c) with (sum 1 (fun q => column (Rm n a) c (i + (c - i) + q)%nat * column (Rm n a) c (i + (c - i) + q)%nat)).
    - assert (E : sum (m - i) (fun q => column (Rm n a) c (i + q)%nat * column (Rm n a) c (i + q)%nat) =
        sum (c - i) (fun q => column (Rm n a) c (i + q)%nat * column (Rm n a) c (i + q)%nat) +
        (sum 1 (fun q => column (Rm n a) c (i + (c - i) + q)%nat * column (Rm n a) c (i + (c - i) + q)%nat) +
         sum (m - i - (c - i) - 1) (fun q => column (Rm n a) c (i + (c - i + (1 + q)))%nat * column (Rm n a) c (i + (c - i + (1 + q)))%nat))).
      { rewrite (sum_split (m - i) (c - i)) by lia. f_equal. rewrite (sum_split (m - i - (c - i)) 1) by lia. f_equal.
        apply sum_ext. intros q Hq. now rewrite Nat.add_assoc. }
      rewrite E.
      assert (P1 : 0 <= sum (c - i) (fun q => column (Rm n a) c (i + q)%nat * column (Rm n a) c (i + q)%nat)) by (apply sum_pos; intros; nra).
      assert (P2 : 0 <= sum (m - i - (c - i) - 1) (fun q => column (Rm n a) c (i + (c - i + (1 + q)))%nat * column (Rm n a) c (i + (c - i + (1 + q)))%nat)) by (apply sum_pos; intros; nra).
      lra.
    - cbn. unfold column, Rm. replace (i + (c - i) + 0)%nat with c by lia. destruct (Nat.ltb_spec c c); [lia|]. rewrite andb_false_r. lra. }
  destruct (pseudorank_ok n a tau Mono) as [Lk Hk]. fold k in Lk, Hk.
  set (T := fun i c => if (i <? k)%nat then Rm n a i c else 0).
  destruct (permM_onto m n (hp s) (fun i c => Qi (column T c) i)) as [A' HA'].
  exists A'. destruct Qo as (Qx & Qix & Ql & Qn & Qinv). assert (Qo : orth m Q Qi) by (repeat split; auto).
  assert (QT : forall c i, (i < m)%nat -> Q (column (permM m n (hp s) A') c) i = T i c).
  { intros c i Hi. rewrite (Qx _ (Qi (column T c))) by (auto; intros q Hq; unfold column at 1; now rewrite HA'). now rewrite Qinv. }
  assert (Hpn : forall q, (q < n)%nat -> (q <= hp s q < n)%nat) by auto.
  (* distance of the columns *)
  assert (Dist : forall c, (c < n)%nat -> norm2 m (fun i => T i c - Rm n a i c) <= tau * tau /\ (k = n -> forall i, (i < m)%nat -> T i c = Rm n a i c)).
  { intros c Hc. assert (Zc : (c < k)%nat -> forall i, T i c = Rm n a i c).
    { intros Hck i. unfold T. destruct (Nat.ltb_spec i k); auto. unfold Rm. destruct (Nat.ltb_spec c n); [|lia]. destruct (Nat.ltb_spec c i); [auto|lia]. }
    split; [|intros Ek i Hi; apply Zc; lia].
    destruct (Nat.lt_ge_cases c k) as [Hck|Hck].
    - replace (norm2 m (fun i => T i c - Rm n a i c)) with 0; [nra|]. symmetry. apply sum_0. intros i Hi. rewrite Zc by auto. ring.
    - assert (E : norm2 m (fun i => T i c - Rm n a i c) = tail k m (column (Rm n a) c)).
      { unfold norm2, dot. rewrite (sum_split m k) by lia. rewrite (sum_0 k).
        - rewrite Rplus_0_l. unfold tail. apply sum_ext. intros q Hq. unfold T. destruct (Nat.ltb_spec (k + q) k); [lia|]. unfold column. ring.
        - intros i Hi. unfold T. destruct (Nat.ltb_spec i k); [ring|lia]. }
      rewrite E. eapply Rle_trans; [apply Htail; lia|]. assert (Nt : ~ tau < Rabs (a k k)) by (rewrite <- Hk by lia; lia).
      assert (Ab : Rabs (a k k) <= tau) by lra. pose proof (Rabs_pos (a k k)).
      replace (a k k * a k k) with (Rabs (a k k) * Rabs (a k k)); [nra|]. rewrite <- Rabs_mult. apply Rabs_right. nra. }
  assert (QD : forall c, (c < n)%nat -> norm2 m (fun i => permM m n (hp s) A' i c - permM m n (hp s) A i c) = norm2 m (fun i => T i c - Rm n a i c)).
  { intros c Hc. rewrite <- Qn. apply norm2_ext. intros i Hi.
    rewrite (Qx _ (fun k => column (permM m n (hp s) A') c k + -1 * column (permM m n (hp s) A) c k)) by (auto; intros; unfold column; lra).
    rewrite Ql, QT, <- QA by auto. fold a. lra. }
  split; [|split].
  - intros c Hc. destruct (permM_col m n (hp s) n (Nat.le_refl _) Hpn c Hc) as (c' & Lc' & E).
    rewrite (norm2_ext m _ (fun i => permM m n (hp s) A' i c' - permM m n (hp s) A i c')) by (intros i Hi; now rewrite !E).
    rewrite QD by auto. now apply Dist.
  - intros Eok i c Hi Hc.
    assert (Ek : k = n). { revert Eok. destruct (Nat.eqb k 0); [auto|]. destruct (if (k <? n)%nat then _ else _). auto. }
    destruct (permM_col m n (hp s) n (Nat.le_refl _) Hpn c Hc) as (c' & Lc' & E).
    pose proof (QD c' Lc') as D. destruct (Dist c' Lc') as [_ D']. specialize (D' Ek).
    assert (Z : norm2 m (fun i => permM m n (hp s) A' i c' - permM m n (hp s) A i c') = 0).
    { rewrite D. apply sum_0. intros q Hq. rewrite D' by auto. ring. }
    pose proof (norm2_zero _ _ Z i Hi) as Y. cbn beta in Y. rewrite !E in Y by auto. lra.
  - intros l Hl.
    (* the residual in the triangular coordinates *)
    set (cl := column (hb s) l). set (U := fun r => upper a r).
    assert (Res : forall x z, (forall i, (i < n)%nat -> z i = permV n (hp s) x i) ->
        residual2 m n A' z (column B l) = sum k (fun i => (dot n (U i) x - cl i) * (dot n (U i) x - cl i)) + tail k m cl).
    { intros x z Hz. unfold residual2.
      rewrite (norm2_ext m _ (fun i => sum n (fun j => permM m n (hp s) A' i j * x j) - column B l i)).
      - rewrite <- Qn. rewrite (norm2_ext m _ (fun i => sum n (fun c => T i c * x c) - cl i)).
        + unfold norm2, dot at 1. rewrite (sum_split m k) by lia. f_equal.
          * apply sum_ext. intros i Hi. replace (sum n (fun c => T i c * x c)) with (dot n (U i) x); auto.
            unfold dot. apply sum_ext. intros c Hc. unfold T, U, upper, Rm. destruct (Nat.ltb_spec i k); [|lia].
            destruct (Nat.ltb_spec c n); [|lia]. destruct (c <? i)%nat; auto.
          * unfold tail. apply sum_ext. intros q Hq. rewrite sum_0; [ring|]. intros c Hc. unfold T. destruct (Nat.ltb_spec (k + q) k); [lia|ring].
        + intros i Hi. rewrite (Q_comb m Q Qi (permM m n (hp s) A') x (column B l)) by auto. rewrite <- QB by auto. fold (cl i). f_equal. apply sum_ext. intros c Hc. now rewrite QT.
      - intros i Hi. f_equal. transitivity (apply n A' (permV n (hp s) x) i).
        + apply sum_ext. intros c Hc. now rewrite Hz.
        + rewrite <- (perm_apply m n A' (hp s) x i Hi n) by auto. reflexivity. }
    assert (Main : forall x0 res rnl, solved n k U cl x0 -> (forall i, (i < n)%nat -> res i = permV n (hp s) x0 i) ->
        rnl = sqrt (tail k m cl) ->
        shortest_least_squares m n A' (column B l) res /\ rnl = sqrt (residual2 m n A' res (column B l)) /\ (k = m -> rnl = 0)).
    { intros x0 res rnl Hs Hr ->.
      assert (R0 : residual2 m n A' res (column B l) = tail k m cl).
      { rewrite (Res x0 res Hr). rewrite sum_0; [ring|]. intros i Hi. rewrite (solved_eq _ _ _ _ _ Hs) by auto. ring. }
      rewrite R0. split; [split|split; [auto|]].
      3:{ intros ->. unfold tail. rewrite Nat.sub_diag. cbn. apply sqrt_0. }
      - intros z. rewrite R0. destruct (permV_onto n (hp s) z) as [y Hy]. rewrite (Res y z) by (intros; symmetry; apply Hy).
        assert (0 <= sum k (fun i => (dot n (U i) y - cl i) * (dot n (U i) y - cl i))) by (apply sum_pos; intros; apply Rle_0_sqr). lra.
      - intros z Hz. destruct (permV_onto n (hp s) z) as [y Hy]. specialize (Hz res). rewrite R0, (Res y z) in Hz by (intros; symmetry; apply Hy).
        assert (Ez : norm2 k (fun i => dot n (U i) y - cl i) = 0).
        { unfold norm2, dot at 1. assert (0 <= sum k (fun i => (dot n (U i) y - cl i) * (dot n (U i) y - cl i))) by (apply sum_pos; intros; apply Rle_0_sqr). lra. }
        rewrite (norm2_ext n res (permV n (hp s) x0)) by auto. rewrite permV_norm by auto.
        rewrite (norm2_ext n z (permV n (hp s) y)) by (intros; symmetry; apply Hy). rewrite permV_norm by auto.
        apply (solved_short n k U cl x0 Lk Hs). intros r Hr'. pose proof (norm2_zero _ _ Ez r Hr') as E0. cbn beta in E0. lra. }
    assert (Rn : forall rn, forUp 0 nb (fun l rn => updv rn l (sqrt (forUp k m (fun i x => x + hb s i l * hb s i l) 0))) rn l = sqrt (tail k m cl)).
    { intros rn'. rewrite (updv_loop 0 nb (fun l _ => sqrt (forUp k m (fun i x => x + hb s i l * hb s i l) 0))) by lia.
      replace ((0 <=? l)%nat && (l <? nb)%nat) with true by (symmetry; apply inRange; lia). rewrite forUp_sum. f_equal. unfold tail, cl, column. lra. }
    assert (Dg : forall r, (r < k)%nat -> 0 < a r r * a r r).
    { intros r Hr. assert (tau < Rabs (a r r)) by (apply Hk; auto; lia). assert (a r r <> 0). { intros E. rewrite E, Rabs_R0 in H. lra. } nra. }
    destruct (Nat.eqb_spec k 0) as [K0|K0].
    + (* k = 0 *)
      cbn [ob ornorm]. apply (Main (fun _ => 0)); auto.
      * exists (fun x => x), (fun x => x), (fun _ _ => 0), (fun _ => 0). split; [apply orth_id|].
        split; [auto|]. split; [intros; lia|]. split; [intros; lia|]. split; [intros; lia|]. split; [intros; lia|auto].
      * intros i Hi.
        assert (Z : forall t (b : mat), (t <= n)%nat -> (i < t)%nat -> forUp 0 t (fun i b => forUp 0 nb (fun j b => put Col b j i 0) b) b i l = 0).
        { intros t b Lt Hit.
          pose proof (forUp_inv (fun t' b' => (i < t')%nat -> b' i l = 0) 0 t (fun i b => forUp 0 nb (fun j b => put Col b j i 0) b) b) as F.
          cbn beta in F. apply F; try lia. intros q b1 Hq Hb1 Hiq.
          assert (In : forall t2, (t2 <= nb)%nat -> forall b2, forUp 0 t2 (fun j b => put Col b j q 0) b2 i l = if Nat.eqb i q && (l <? t2)%nat then 0 else b2 i l).
          { intros t2 Lt2 b2.
            pose proof (forUp_inv (fun t3 b3 => b3 i l = if Nat.eqb i q && (l <? t3)%nat then 0 else b2 i l) 0 t2 (fun j b => put Col b j q 0) b2) as G.
            cbn beta in G. apply G; [lia|now rewrite andb_false_r|]. intros j b3 Hj Hb3. unfold put. rewrite Hb3.
            destruct (Nat.eqb_spec i q); cbn [andb]; auto. destruct (Nat.eqb_spec l j).
            - subst. destruct (Nat.ltb_spec j (S j)); [auto|lia].
            - destruct (Nat.ltb_spec l j); destruct (Nat.ltb_spec l (S j)); auto; lia. }
          rewrite In by lia. destruct (Nat.ltb_spec l nb); [|lia]. destruct (Nat.eqb_spec i q); cbn [andb]; auto. apply Hb1. lia. }
        unfold column. rewrite Z by lia. clear. generalize n as j. induction j; auto. unfold permV. rewrite forDown_S. exact IHj.
    + destruct (Nat.ltb_spec k n) as [Kn|Kn].
      * (* 0 < k < n *)
        pose proof (rowStage_ok k n a g Kn) as RS. unfold rowStage in RS.
        destruct (forDown k _ (a, g)) as [a1 g1]. destruct RS as (_ & D2 & wf & E1 & E2). cbn [fst snd ob ornorm] in *.
        assert (Dn : forall r, (r < k)%nat -> a1 r r <> 0).
        { intros r Hr E. specialize (D2 r ltac:(lia)). specialize (Dg r Hr). rewrite E in D2. lra. }
        pose proof (backsub_all k n nb a1 (hb s) ltac:(lia) Lk Dn l Hl) as BS. cbv zeta in BS.
        set (b1 := forUp 0 nb (fun l b => backsub k n a1 b l) (hb s)) in *. destruct BS as [BS1 BS2].
        apply (Main (Kops k n wf 0 (column b1 l))); auto.
        -- destruct (Kops_orth k n wf 0 ltac:(lia)) as [Ki Ko]. exists (Kops k n wf 0), Ki, (Wm k 0 a1), (column b1 l).
           assert (WS : forall r y, (r < k)%nat -> dot n (Wm k 0 a1 r) y = sum (k - r) (fun q => Wm k 0 a1 r (r + q)%nat * y (r + q)%nat)).
           { intros r y Hr. unfold dot. rewrite (sum_split n r) by lia. rewrite sum_0.
             - rewrite Rplus_0_l. rewrite (sum_split (n - r) (k - r)) by lia.
               rewrite (sum_0 (n - r - (k - r))); [ring|]. intros q Hq. unfold Wm. destruct (Nat.ltb_spec (r + (k - r + q)) r); [lia|].
               cbn [Nat.leb andb]. destruct (Nat.leb_spec k (r + (k - r + q))); [ring|lia].
             - intros c Hc. unfold Wm. destruct (Nat.ltb_spec c r); [ring|lia]. }
           split; [auto|]. split; [auto|]. split; [intros; now apply E2|]. split; [exact WS|]. split; [|split].
           ++ intros r Hr. unfold Wm. destruct (Nat.ltb_spec r r); [lia|]. cbn [Nat.leb andb]. destruct (Nat.leb_spec k r); [lia|auto].
           ++ intros r Hr. rewrite WS by auto. unfold cl, column. rewrite <- BS1 by auto. apply sum_ext. intros q Hq. unfold Wm.
              destruct (Nat.ltb_spec (r + q) r); [lia|]. cbn [Nat.leb andb]. destruct (Nat.leb_spec k (r + q)); [lia|auto].
           ++ intros i Hi. now apply BS2.
        -- intros i Hi. unfold column. rewrite unpermute_col by auto. apply permV_ext. intros q. unfold column.
           apply (colStage_ok k n nb a1 g1 wf b1 Kn); auto. intros r Hr. apply E1. lia.
      * (* k = n *)
        assert (Ek : k = n) by lia. cbn [ob ornorm].
        assert (Dn : forall r, (r < k)%nat -> a r r <> 0).
        { intros r Hr E. specialize (Dg r Hr). rewrite E in Dg. lra. }
        pose proof (backsub_all k n nb a (hb s) ltac:(lia) Lk Dn l Hl) as BS. cbv zeta in BS.
        set (b1 := forUp 0 nb (fun l b => backsub k n a b l) (hb s)) in *. destruct BS as [BS1 BS2].
        apply (Main (column b1 l)); auto.
        -- exists (fun x => x), (fun x => x), U, (column b1 l).
           assert (WS : forall r y, (r < k)%nat -> dot n (U r) y = sum (k - r) (fun q => U r (r + q)%nat * y (r + q)%nat)).
           { intros r y Hr. unfold dot. rewrite (sum_split n r) by lia. rewrite sum_0.
             - rewrite Rplus_0_l. now rewrite Ek.
             - intros c Hc. unfold U, upper. destruct (Nat.ltb_spec c r); [ring|lia]. }
           split; [apply orth_id|]. split; [auto|]. split; [auto|]. split; [exact WS|]. split; [|split].
           ++ intros r Hr. unfold U, upper. destruct (Nat.ltb_spec r r); [lia|auto].
           ++ intros r Hr. rewrite WS by auto. unfold cl, column. rewrite <- BS1 by auto. apply sum_ext. intros q Hq. unfold U, upper.
              destruct (Nat.ltb_spec (r + q) r); [lia|auto].
           ++ intros i Hi. lia.
        -- intros i Hi. unfold column. rewrite unpermute_col by auto. reflexivity.
Qed.
