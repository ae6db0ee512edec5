(** Loops, and lemmas about sums. *)
From Coq Require Import Reals Arith Bool Lia Lra.
From Verif Require Import LaSpec.
Local Open Scope R_scope.

(** for (k=0; k<n; k++) s = f(k, s) *)
Fixpoint repeat {S : Type} (n : nat) (f : nat -> S -> S) (s : S) : S :=
  match n with O => s | Datatypes.S n' => f n' (repeat n' f s) end.
(** for (i=lo; i<hi; i++), and for (i=hi-1; i>=0; i--) *)
Definition forUp {S : Type} (lo hi : nat) (f : nat -> S -> S) (s : S) : S := repeat (hi - lo) (fun k => f (lo + k)%nat) s.
Definition forDown {S : Type} (hi : nat) (f : nat -> S -> S) (s : S) : S := repeat hi (fun k => f (hi - 1 - k)%nat) s.

Lemma repeat_inv {S} (P : nat -> S -> Prop) n f s :
  P O s -> (forall i s, (i < n)%nat -> P i s -> P (Datatypes.S i) (f i s)) -> P n (repeat n f s).
Proof. intros H0 HS. induction n; cbn; auto. apply HS; [lia|]. apply IHn. intros; apply HS; auto. Qed.
Lemma forUp_inv {S} (P : nat -> S -> Prop) lo hi f s : (lo <= hi)%nat ->
  P lo s -> (forall i s, (lo <= i < hi)%nat -> P i s -> P (Datatypes.S i) (f i s)) -> P hi (forUp lo hi f s).
Proof.
  intros L H0 HS. unfold forUp. replace hi with (lo + (hi - lo))%nat at 1 by lia.
  apply (repeat_inv (fun k s => P (lo + k)%nat s)); [now rewrite Nat.add_0_r|].
  intros i s' Li H. replace (lo + Datatypes.S i)%nat with (Datatypes.S (lo + i)) by lia. apply HS; auto. lia.
Qed.
Lemma forUp_empty {S} lo hi f (s : S) : (hi <= lo)%nat -> forUp lo hi f s = s.
Proof. intros H. unfold forUp. now replace (hi - lo)%nat with O by lia. Qed.
Lemma forDown_inv {S} (P : nat -> S -> Prop) hi f s :
  P hi s -> (forall i s, (i < hi)%nat -> P (Datatypes.S i) s -> P i (f i s)) -> P O (forDown hi f s).
Proof.
  intros H0 HS. unfold forDown. replace O with (hi - hi)%nat at 1 by lia.
  apply (repeat_inv (fun k s => P (hi - k)%nat s)); [now rewrite Nat.sub_0_r|].
  intros i s' Li H. replace (hi - Datatypes.S i)%nat with (hi - 1 - i)%nat by lia. apply HS; [lia|].
  now replace (Datatypes.S (hi - 1 - i)) with (hi - i)%nat by lia.
Qed.

Lemma sum_ext n f g : (forall i, (i < n)%nat -> f i = g i) -> sum n f = sum n g.
Proof. induction n; cbn; intros H; auto. rewrite IHn, H; auto. Qed.
Lemma sum_plus n f g : sum n (fun i => f i + g i) = sum n f + sum n g.
Proof. induction n; cbn; [lra|]. rewrite IHn; lra. Qed.
Lemma sum_minus n f g : sum n (fun i => f i - g i) = sum n f - sum n g.
Proof. induction n; cbn; [lra|]. rewrite IHn; lra. Qed.
Lemma sum_scal n c f : sum n (fun i => c * f i) = c * sum n f.
Proof. induction n; cbn; [lra|]. rewrite IHn; lra. Qed.
Lemma sum_0 n f : (forall i, (i < n)%nat -> f i = 0) -> sum n f = 0.
Proof. induction n; cbn; intros H; auto. rewrite IHn, H; auto. lra. Qed.
Lemma sum_swap n m f : sum n (fun i => sum m (fun j => f i j)) = sum m (fun j => sum n (fun i => f i j)).
Proof. induction n; cbn; [now rewrite sum_0|]. now rewrite IHn, sum_plus. Qed.
Lemma sum_pos n f : (forall i, (i < n)%nat -> 0 <= f i) -> 0 <= sum n f.
Proof. induction n; cbn; intros H; [lra|]. assert (0 <= sum n f) by (apply IHn; auto). assert (0 <= f n) by auto. lra. Qed.
Lemma sum_split n k f : (k <= n)%nat -> sum n f = sum k f + sum (n - k) (fun i => f (k + i)%nat).
Proof.
  induction n; intros L; [replace k with O by lia; cbn; lra|].
  destruct (Nat.eq_dec k (S n)); [subst; replace (S n - S n)%nat with O by lia; cbn; lra|].
  replace (S n - k)%nat with (S (n - k)) by lia. cbn. rewrite IHn by lia. replace (k + (n - k))%nat with n by lia. lra.
Qed.
Lemma sum_at n k f g : (forall i, (i < n)%nat -> i <> k -> f i = g i) -> (k < n)%nat -> sum n f = sum n g + (f k - g k).
Proof.
  induction n; intros H L; [lia|]. cbn. destruct (Nat.eq_dec k n).
  - subst. rewrite (sum_ext n f g) by (intros; apply H; lia). lra.
  - rewrite IHn by (intros; try apply H; lia). rewrite (H n) by lia. lra.
Qed.
Lemma sum_one n k (f : nat -> R) : (k < n)%nat -> sum n (fun i => if Nat.eqb i k then f i else 0) = f k.
Proof.
  intros L. rewrite (sum_at n k _ (fun _ => 0)); auto.
  - rewrite sum_0 by auto. rewrite Nat.eqb_refl. lra.
  - intros i _ N. destruct (Nat.eqb_spec i k); [contradiction|auto].
Qed.
(** the usual C accumulation s += f(i) *)
Lemma forUp_sum lo hi f s : forUp lo hi (fun i s => s + f i) s = s + sum (hi - lo) (fun k => f (lo + k)%nat).
Proof. unfold forUp. induction (hi - lo)%nat; cbn; [lra|]. rewrite IHn. lra. Qed.
Lemma sum_range lo hi n f : (lo <= hi)%nat -> (hi <= n)%nat ->
  sum n (fun i => if ((lo <=? i)%nat && (i <? hi)%nat)%bool then f i else 0) = sum (hi - lo) (fun k => f (lo + k)%nat).
Proof.
  intros L H. rewrite (sum_split n lo) by lia. rewrite sum_0.
  - rewrite (sum_split (n - lo) (hi - lo)) by lia. rewrite (sum_ext (hi - lo) _ (fun k => f (lo + k)%nat)).
    + rewrite (sum_0 (n - lo - (hi - lo))); [lra|]. intros i Hi. destruct (Nat.ltb_spec (lo + (hi - lo + i)) hi); [lia|]. now rewrite Bool.andb_false_r.
    + intros i Hi. destruct (Nat.leb_spec lo (lo + i)); [|lia]. destruct (Nat.ltb_spec (lo + i) hi); [|lia]. auto.
  - intros i Hi. destruct (Nat.leb_spec lo i); [lia|]. auto.
Qed.
Lemma dot_sym n u v : dot n u v = dot n v u.
Proof. apply sum_ext. intros. lra. Qed.
Lemma dot_ext n u u' v v' : (forall i, (i < n)%nat -> u i = u' i) -> (forall i, (i < n)%nat -> v i = v' i) -> dot n u v = dot n u' v'.
Proof. intros A B. apply sum_ext. intros. now rewrite A, B. Qed.
Lemma dot_plus_l n u u' v : dot n (fun i => u i + u' i) v = dot n u v + dot n u' v.
Proof. unfold dot. rewrite <- sum_plus. apply sum_ext. intros. lra. Qed.
Lemma dot_scal_l n a u v : dot n (fun i => a * u i) v = a * dot n u v.
Proof. unfold dot. rewrite <- sum_scal. apply sum_ext. intros. lra. Qed.
Lemma norm2_pos n u : 0 <= norm2 n u.
Proof. apply sum_pos. intros. nra. Qed.
Lemma norm2_ext n u v : (forall i, (i < n)%nat -> u i = v i) -> norm2 n u = norm2 n v.
Proof. intros H. unfold norm2. now apply dot_ext. Qed.
Lemma norm2_zero n u : norm2 n u = 0 -> forall i, (i < n)%nat -> u i = 0.
Proof.
  unfold norm2, dot. induction n; intros H i L; [lia|]. cbn in H. assert (P := norm2_pos n u). unfold norm2, dot in P.
  assert (u n * u n = 0) by nra. assert (u n = 0) by nra. destruct (Nat.eq_dec i n); [now subst|]. apply IHn; [nra|lia].
Qed.
