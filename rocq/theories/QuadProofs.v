(** The quadratic step meets its constraints and is stationary on them. *)
From Coq Require Import Reals ZArith Arith Bool Lia Lra.
From Verif Require Import LaSpec LaBase HhModel HhProofs HftiProofs HftiSolve QuadModel.
Local Open Scope R_scope.

(** ** The decomposition of the constraints *)
Definition lower (i : nat) (a : mat) (r c : nat) : R := if (r <? i)%nat && (r <? c)%nat then 0 else a r c.
Definition Kd (n : nat) (wf : nat -> vec) (i : nat) (y : vec) : vec := forDown i (fun r y => stepQ r (r + 1) n (wf r) y) y.
Definition Ku (n : nat) (wf : nat -> vec) (i : nat) (y : vec) : vec := forUp 0 i (fun r y => stepQ r (r + 1) n (wf r) y) y.
Lemma Kd_S n wf i y : Kd n wf (S i) y = Kd n wf i (stepQ i (i + 1) n (wf i) y).
Proof. unfold Kd. rewrite forDown_S. reflexivity. Qed.
Lemma Ku_S n wf i y : Ku n wf (S i) y = stepQ i (i + 1) n (wf i) (Ku n wf i y).
Proof. unfold Ku, forUp. rewrite !Nat.sub_0_r. reflexivity. Qed.
Lemma Kd_orth n wf i : exists Ki, orth n (Kd n wf i) Ki.
Proof.
  induction i.
  - exists (fun x => x). apply orth_id.
  - destruct IHi as [Ki H]. exists (fun x => stepQ i (i + 1) n (wf i) (Ki x)).
    pose proof (orth_comp n _ _ _ _ (stepQ_orth i (i + 1) n (wf i)) H) as (A & B & C & D & F).
    repeat split; auto.
    + intros x y Hx k Hk. rewrite !Kd_S. now apply A.
    + intros x y t k Hk. rewrite !Kd_S. now apply C.
    + intros x. rewrite Kd_S. apply D.
    + intros x k Hk. rewrite Kd_S. now apply F.
Qed.
Lemma K_adj n wf i x y : dot n (Ku n wf i x) y = dot n x (Kd n wf i y).
Proof. revert x y. induction i; intros x y; auto. rewrite Ku_S, Kd_S, stepQ_adj. apply IHi. Qed.
Lemma Kd_ext n wf wf' i y : (forall r, (r < i)%nat -> wf r = wf' r) -> Kd n wf i y = Kd n wf' i y.
Proof. revert y. induction i; intros y H; auto. rewrite !Kd_S. rewrite H by lia. apply IHi. intros; apply H; lia. Qed.

Definition cinv (rows n : nat) (C0 : mat) (i : nat) (ch : mat * vec) : Prop :=
  exists wf, (forall r, (r < i)%nat -> (forall c, (r < c < n)%nat -> fst ch r c = wf r c) /\ fst ch r r = sStep r n (wf r) /\
      ((r + 1 < n)%nat -> snd ch r = wf r r - sOf r (r + 1) n (wf r))) /\
    (forall r y, (r < rows)%nat -> dot n (C0 r) (Kd n wf i y) = dot n (lower i (fst ch) r) y).
Lemma conDecomp_ok rows n C h : (rows <= n)%nat -> cinv rows n C rows (conDecomp rows n C h).
Proof.
  intros Ln. unfold conDecomp. apply (forUp_inv (cinv rows n C)); [lia| |].
  - exists (fun _ _ => 0). split; [intros; lia|]. intros r y Hr. reflexivity.
  - intros i [a1 h1] Hi (wf & E1 & E2). cbn [fst snd] in *.
    pose proof (fun r c H => self_get Row i (i + 1) n a1 i (h1 i) (i + 1) rows r c H) as G. cbn [get] in G.
    pose proof (self_h Row i (i + 1) n a1 i (h1 i) (i + 1) rows) as Gh.
    destruct (householderSelf Row Row i (i + 1) n a1 i (h1 i) (i + 1) rows) as [a2 gi]. cbn [fst snd] in *.
    assert (Gd : (i <? i + 1)%nat && (i + 1 <? n)%nat = (i + 1 <? n)%nat) by (destruct (Nat.ltb_spec i (i + 1)); [auto|lia]).
    rewrite Gd in *. assert (Nk : forall q, (i + 1 <= q < rows)%nat -> q <> i) by (intros; lia).
    set (w := a1 i) in *. change (get Row a1 i) with w in *.
    assert (G1 : forall r c, (r < rows)%nat -> a2 r c = if (i <? r)%nat then stepQ i (i + 1) n w (a1 r) c else if Nat.eqb r i && Nat.eqb c i then sStep i n w else a1 r c).
    { intros r c Hr. rewrite (G r c Nk). destruct (Nat.ltb_spec i r).
      - replace ((i + 1 <=? r)%nat && (r <? rows)%nat) with true by (symmetry; apply inRange; lia). reflexivity.
      - replace ((i + 1 <=? r)%nat && (r <? rows)%nat) with false by (symmetry; apply inRange_false; lia).
        destruct (Nat.eqb_spec r i) as [->|]; [|reflexivity]. destruct (Nat.eqb_spec c i) as [->|]; [|reflexivity]. cbn [andb]. unfold sStep.
        destruct (i + 1 <? n)%nat; reflexivity. }
    set (wf' := fun r => if Nat.eqb r i then w else wf r). exists wf'. cbn [fst snd]. split.
    + intros r Hr. unfold wf'. destruct (Nat.eqb_spec r i) as [->|N].
      * split; [|split].
        -- intros c Hc. rewrite G1 by lia. destruct (Nat.ltb_spec i i); [lia|]. destruct (Nat.eqb_spec c i); [lia|]. now rewrite andb_false_r.
        -- rewrite G1 by lia. destruct (Nat.ltb_spec i i); [lia|]. now rewrite Nat.eqb_refl.
        -- intros L. unfold updv. rewrite Nat.eqb_refl, Gh. destruct (Nat.ltb_spec (i + 1) n); [reflexivity|lia].
      * destruct (E1 r ltac:(lia)) as (F1 & F2 & F3).
        assert (Same : forall c, a2 r c = a1 r c).
        { intros c. rewrite G1 by lia. destruct (Nat.ltb_spec i r); [lia|]. destruct (Nat.eqb_spec r i); [lia|]. reflexivity. }
        split; [|split].
        -- intros c Hc. rewrite Same. auto.
        -- now rewrite Same.
        -- intros L. unfold updv. destruct (Nat.eqb_spec r i); [lia|auto].
    + intros r y Hr. rewrite Kd_S. unfold wf' at 2. rewrite Nat.eqb_refl.
      rewrite (Kd_ext n wf' wf) by (intros q Hq; unfold wf'; destruct (Nat.eqb_spec q i); [lia|auto]).
      rewrite E2 by auto. rewrite <- stepQ_adj. apply dot_ext; auto. intros c Hc.
      destruct (lt_eq_lt_dec r i) as [[L|L]|L].
      * rewrite stepQ_zero; [| lia | |].
        -- unfold lower. destruct (Nat.ltb_spec r i); [|lia]. destruct (Nat.ltb_spec r (S i)); [|lia]. cbn [andb].
           destruct (Nat.ltb_spec r c); auto. rewrite G1 by lia. destruct (Nat.ltb_spec i r); [lia|]. destruct (Nat.eqb_spec r i); [lia|auto].
        -- unfold lower. destruct (Nat.ltb_spec r i); [auto|lia].
        -- intros k Hk. unfold lower. destruct (Nat.ltb_spec r i); [|lia]. destruct (Nat.ltb_spec r k); [auto|lia].
      * subst r. rewrite (stepQ_pt _ _ _ _ _ w); [| lia |].
        2:{ intros k. unfold lower. destruct (Nat.ltb_spec i i); [lia|auto]. }
        rewrite stepQ_pivot by lia. unfold lower. destruct (Nat.ltb_spec i (S i)); [|lia]. cbn [andb].
        rewrite G1 by lia. destruct (Nat.ltb_spec i i); [lia|]. rewrite Nat.eqb_refl. cbn [andb].
        destruct (Nat.ltb_spec c i); destruct (Nat.ltb_spec i c); destruct (Nat.eqb_spec c i); try lia; auto.
      * rewrite (stepQ_pt _ _ _ _ _ (a1 r)); [| lia |].
        2:{ intros k. unfold lower. destruct (Nat.ltb_spec r i); [lia|auto]. }
        unfold lower. destruct (Nat.ltb_spec r (S i)); [lia|]. cbn [andb].
        rewrite G1 by lia. destruct (Nat.ltb_spec i r); [auto|lia].
Qed.

(** ** Applying the decomposition *)
Section Proj.
Variables (rows n : nat) (C : mat) (h : vec) (wf : nat -> vec).
Hypothesis (Ln : (rows <= n)%nat).
Hypothesis (Hw : forall r, (r < rows)%nat -> (forall c, (r < c < n)%nat -> C r c = wf r c) /\ C r r = sStep r n (wf r) /\
      ((r + 1 < n)%nat -> h r = wf r r - sOf r (r + 1) n (wf r))).
Lemma one_get o i M from upto k q : (i < rows)%nat ->
  get o (let '(_, _, M') := householder Row o H2 i (i + 1) n C i (h i) M from upto in M') k q =
  if (from <=? k)%nat && (k <? upto)%nat then stepQ i (i + 1) n (wf i) (get o M k) q else get o M k q.
Proof.
  intros Hi. pose proof (h2_get Row o i (i + 1) n C i (h i) M from upto (wf i) k q) as G.
  destruct (householder Row o H2 i (i + 1) n C i (h i) M from upto) as [[v0 h0] M']. cbn [snd] in G. apply G.
  - intros c Hc. cbn. apply Hw; auto. lia.
  - intros Gd. apply andb_true_iff in Gd. rewrite !Nat.ltb_lt in Gd. destruct (Hw i Hi) as (_ & W2 & W3). split.
    + cbn. rewrite W2. unfold sStep. destruct (Nat.ltb_spec (i + 1) n); [auto|lia].
    + apply W3. lia.
Qed.
Lemma Ku_pt i x y : (i <= rows)%nat -> (forall k, x k = y k) -> forall q, Ku n wf i x q = Ku n wf i y q.
Proof. intros Hi H. induction i; intros q; [apply H|]. rewrite !Ku_S. apply stepQ_pt; [lia|]. apply IHi. lia. Qed.
Lemma Kd_pt i x y : (i <= rows)%nat -> (forall k, x k = y k) -> forall q, Kd n wf i x q = Kd n wf i y q.
Proof. intros Hi. revert x y. induction i; intros x y H q; [apply H|]. rewrite !Kd_S. apply IHi; [lia|]. intros k. apply stepQ_pt; [lia|auto]. Qed.
Lemma projUp_get o M from upto k q : get o (projUp o rows n C h M from upto) k q =
  if (from <=? k)%nat && (k <? upto)%nat then Ku n wf rows (get o M k) q else get o M k q.
Proof.
  unfold projUp. revert k q.
  apply (forUp_inv (fun i M' => forall k q, get o M' k q = if (from <=? k)%nat && (k <? upto)%nat then Ku n wf i (get o M k) q else get o M k q)); [lia| |].
  - intros k q. destruct ((from <=? k)%nat && (k <? upto)%nat); reflexivity.
  - intros i M' Hi H k q. rewrite one_get by lia. destruct ((from <=? k)%nat && (k <? upto)%nat) eqn:E.
    + rewrite Ku_S. apply stepQ_pt; [lia|]. intros c. rewrite H, E. reflexivity.
    + rewrite H, E. reflexivity.
Qed.
Lemma projDown_get o M from upto k q : get o (projDown o rows n C h M from upto) k q =
  if (from <=? k)%nat && (k <? upto)%nat then Kd n wf rows (get o M k) q else get o M k q.
Proof.
  unfold projDown.
  assert (G : forall i, (i <= rows)%nat -> forall M q, get o (forDown i (fun i M => let '(_, _, M') := householder Row o H2 i (i + 1) n C i (h i) M from upto in M') M) k q =
    if (from <=? k)%nat && (k <? upto)%nat then Kd n wf i (get o M k) q else get o M k q).
  { induction i; intros Hi M' q'.
    - destruct ((from <=? k)%nat && (k <? upto)%nat); reflexivity.
    - rewrite forDown_S, IHi by lia. destruct ((from <=? k)%nat && (k <? upto)%nat) eqn:E.
      + rewrite Kd_S. apply Kd_pt; [lia|]. intros c. rewrite one_get by lia. now rewrite E.
      + rewrite one_get by lia. now rewrite E. }
  now apply G.
Qed.
End Proj.

(** ** The right-hand side of the constraints *)
Lemma conSolve_ok rows C d y0 : (forall r, (r < rows)%nat -> C r r <> 0) ->
  forall r, (r < rows)%nat -> sum (S r) (fun j => C r j * conSolve rows C d y0 j) = d r.
Proof.
  intros Hd. unfold conSolve.
  pose proof (forUp_inv (fun i y => forall r, (r < i)%nat -> sum (S r) (fun j => C r j * y j) = d r) 0 rows
    (fun i y => updv y i (forUp 0 i (fun j x => x - C i j * y j) (d i) / C i i)) y0) as F. cbn beta in F. apply F; [lia|intros; lia|].
  intros i y Hi H r Hr.
  assert (S0 : forUp 0 i (fun j x => x - C i j * y j) (d i) = d i - sum i (fun j => C i j * y j)).
  { clear. unfold forUp. rewrite Nat.sub_0_r. cbn [Nat.add].
    cut (forall q, repeat q (fun j x => x - C i j * y j) (d i) = d i - sum q (fun j => C i j * y j)); [intros G; apply G|].
    induction q as [|q IH]; cbn; [lra|]. rewrite IH. lra. }
  destruct (Nat.eq_dec r i) as [->|N].
  - cbn [sum]. unfold updv at 2. rewrite Nat.eqb_refl, S0.
    rewrite (sum_ext i (fun j => C i j * updv y i ((d i - sum i (fun j => C i j * y j)) / C i i) j) (fun j => C i j * y j)).
    + field. apply Hd. lia.
    + intros j Hj. unfold updv. destruct (Nat.eqb_spec j i); [lia|auto].
  - rewrite <- (H r) by lia. apply sum_ext. intros j Hj. unfold updv. destruct (Nat.eqb_spec j i); [lia|auto].
Qed.
(** lower triangular, with a nonzero diagonal: only zero is mapped to zero *)
Lemma lower_unique k (a : mat) d : (forall r, (r < k)%nat -> a r r <> 0) ->
  (forall r, (r < k)%nat -> sum (S r) (fun q => a r q * d q) = 0) -> forall r, (r < k)%nat -> d r = 0.
Proof.
  intros Hd H r. induction r as [r IH] using (well_founded_induction lt_wf). intros Hr.
  pose proof (H r Hr) as E. cbn [sum] in E. rewrite sum_0 in E.
  - assert (M : a r r * d r = 0) by lra. apply Rmult_integral in M. destruct M as [M|M]; auto. now apply Hd in M.
  - intros q Hq. rewrite IH by lia. ring.
Qed.
(** a row vector of length i is a combination of the rows of a lower triangular matrix with nonzero diagonal *)
Lemma lower_span i (a : mat) : (forall r, (r < i)%nat -> a r r <> 0) -> (forall r c, (r < i)%nat -> (r < c)%nat -> a r c = 0) ->
  forall v : vec, exists u : vec, forall c, (c < i)%nat -> sum i (fun r => u r * a r c) = v c.
Proof.
  induction i; intros Hd Hz v; [exists (fun _ => 0); intros; lia|].
  destruct (IHi ltac:(intros; apply Hd; lia) ltac:(intros; apply Hz; lia) (fun c => v c - v i / a i i * a i c)) as [u Hu].
  exists (fun r => if Nat.eqb r i then v i / a i i else u r). intros c Hc. cbn [sum]. rewrite Nat.eqb_refl.
  rewrite (sum_ext i _ (fun r => u r * a r c)) by (intros r Hr; destruct (Nat.eqb_spec r i); [lia|auto]).
  destruct (Nat.eq_dec c i) as [->|N].
  - rewrite sum_0; [field; apply Hd; lia|]. intros r Hr. rewrite Hz by lia. ring.
  - rewrite Hu by lia. ring.
Qed.

Lemma diag_nonzero rows n C C' h : (rows <= n)%nat -> independent rows n C -> cinv rows n C rows (C', h) ->
  forall r, (r < rows)%nat -> C' r r <> 0.
Proof.
  intros Ln Hi (wf & _ & HC). cbn [fst] in HC.
  assert (P : forall r, (r <= rows)%nat -> forall q, (q < r)%nat -> C' q q <> 0).
  { induction r; intros Lr q Hq; [lia|]. destruct (Nat.eq_dec q r) as [->|N]; [|apply IHr; lia].
    intros Z. set (L := lower rows C').
    destruct (lower_span r L) with (v := L r) as [u Hu].
    - intros q Hq'. unfold L, lower. destruct (Nat.ltb_spec q q); [lia|]. rewrite andb_false_r. apply IHr; lia.
    - intros a b Ha Hab. unfold L, lower. destruct (Nat.ltb_spec a rows); [|lia]. destruct (Nat.ltb_spec a b); [auto|lia].
    - set (v := fun i => if (i <? r)%nat then u i else if Nat.eqb i r then -1 else 0).
      assert (V : forall f, sum rows (fun i => v i * f i) = sum r (fun i => u i * f i) - f r).
      { intros f. rewrite (sum_split rows (S r)) by lia. cbn [sum]. rewrite (sum_0 (rows - S r)).
        - unfold v at 2. destruct (Nat.ltb_spec r r); [lia|]. rewrite Nat.eqb_refl.
          rewrite (sum_ext r _ (fun i => u i * f i)) by (intros i Hi'; unfold v; destruct (Nat.ltb_spec i r); [auto|lia]). lra.
        - intros i Hi'. unfold v. destruct (Nat.ltb_spec (S r + i) r); [lia|]. destruct (Nat.eqb_spec (S r + i) r); [lia|ring]. }
      assert (Comb : forall y, sum rows (fun i => v i * dot n (C i) y) = 0).
      { intros y. destruct (Kd_orth n wf rows) as (Ki & Ko). destruct Ko as (Kx & _ & _ & _ & Kinv).
        rewrite (sum_ext rows _ (fun i => v i * dot n (L i) (Ki y))).
        - rewrite V. unfold dot.
          rewrite (sum_ext r _ (fun i => sum n (fun c => u i * L i c * Ki y c))).
          + rewrite sum_swap. rewrite <- sum_minus. apply sum_0. intros c Hc.
            rewrite (sum_ext r _ (fun i => Ki y c * (u i * L i c))) by (intros; ring). rewrite sum_scal.
            destruct (Nat.lt_ge_cases c r) as [Lc|Lc]; [rewrite Hu by auto; ring|].
            rewrite sum_0.
            * replace (L r c) with 0; [ring|]. unfold L, lower. destruct (Nat.ltb_spec r rows); [|lia].
              destruct (Nat.ltb_spec r c); [auto|]. cbn [andb]. replace c with r by lia. auto.
            * intros i Hi'. unfold L, lower. destruct (Nat.ltb_spec i rows); [|lia]. destruct (Nat.ltb_spec i c); [cbn [andb]; ring|lia].
          + intros i Hi'. rewrite <- sum_scal. apply sum_ext. intros; ring.
        - intros i Hi'. unfold L. rewrite <- HC by auto. f_equal. apply dot_ext; auto. intros k Hk. symmetry. now apply Kinv. }
      assert (Zero : v r = 0).
      { apply (Hi v); [|lia]. intros j Hj. specialize (Comb (fun c => if Nat.eqb c j then 1 else 0)). rewrite <- Comb. apply sum_ext.
        intros i Hi'. f_equal. unfold dot. rewrite (sum_ext n _ (fun c => if Nat.eqb c j then C i c else 0)) by (intros c Hc; cbv beta; destruct (Nat.eqb c j); [rewrite Rmult_1_r|rewrite Rmult_0_r]; reflexivity).
        now rewrite sum_one. }
      unfold v in Zero. destruct (Nat.ltb_spec r r); [lia|]. rewrite Nat.eqb_refl in Zero. lra. }
  intros r Hr. apply (P rows); auto.
Qed.

(** ** The whole step *)
Lemma subLoop rows n E (y : vec) B i l : forall t, (rows <= t)%nat -> (t <= n)%nat ->
  forUp rows t (fun i B => forUp 0 rows (fun j B => put Col B 0 i (B i 0%nat - E i j * y j)) B) B i l =
  if (rows <=? i)%nat && (i <? t)%nat && Nat.eqb l 0 then B i 0%nat - sum rows (fun j => E i j * y j) else B i l.
Proof.
  intros t Lt Ltn.
  assert (In : forall i0 q B0 i l, forUp 0 q (fun j B => put Col B 0 i0 (B i0 0%nat - E i0 j * y j)) B0 i l =
     if Nat.eqb i i0 && Nat.eqb l 0 then B0 i0 0%nat - sum q (fun j => E i0 j * y j) else B0 i l).
  { intros i0 q B0. unfold forUp. rewrite Nat.sub_0_r. cbn [Nat.add]. induction q; intros i' l'; cbn [repeat sum].
    - destruct (Nat.eqb_spec i' i0); destruct (Nat.eqb_spec l' 0); subst; cbn [andb]; auto. lra.
    - unfold put. destruct (Nat.eqb_spec i' i0); destruct (Nat.eqb_spec l' 0); subst; cbn [andb].
      + rewrite IHq, !Nat.eqb_refl. cbn [andb]. lra.
      + rewrite IHq. destruct (Nat.eqb_spec l' 0); [contradiction|]. now rewrite andb_false_r.
      + rewrite IHq. destruct (Nat.eqb_spec i' i0); [contradiction|auto].
      + rewrite IHq. destruct (Nat.eqb_spec i' i0); [contradiction|auto]. }
  revert i l.
  apply (forUp_inv (fun t B' => forall i l, B' i l = if (rows <=? i)%nat && (i <? t)%nat && Nat.eqb l 0 then B i 0%nat - sum rows (fun j => E i j * y j) else B i l)); [lia| |].
  - intros i l. replace ((rows <=? i)%nat && (i <? rows)%nat) with false by (symmetry; apply inRange_false; lia). auto.
  - intros q B' Hq H i l. rewrite In. destruct (Nat.eqb_spec i q) as [->|N].
    + replace ((rows <=? q)%nat && (q <? S q)%nat) with true by (symmetry; apply inRange; lia). cbn [andb].
      destruct (Nat.eqb_spec l 0) as [->|N].
      * rewrite H. replace ((rows <=? q)%nat && (q <? q)%nat) with false by (symmetry; apply inRange_false; lia). auto.
      * rewrite H. destruct (Nat.eqb_spec l 0); [contradiction|]. now rewrite andb_false_r.
    + cbn [andb]. rewrite H. replace ((rows <=? i)%nat && (i <? S q)%nat) with ((rows <=? i)%nat && (i <? q)%nat); auto.
      destruct ((rows <=? i)%nat && (i <? q)%nat) eqn:E1; symmetry; [apply inRange in E1; apply inRange; lia|apply inRange_false in E1; apply inRange_false; lia].
Qed.
Lemma putLoop rows (y : vec) B i l : forUp 0 rows (fun i B => put Col B 0 i (y i)) B i l = if (i <? rows)%nat && Nat.eqb l 0 then y i else B i l.
Proof.
  revert i l. apply (forUp_inv (fun t B' => forall i l, B' i l = if (i <? t)%nat && Nat.eqb l 0 then y i else B i l)); [lia|auto|].
  intros q B' Hq H i l. unfold put. rewrite H. destruct (Nat.eqb_spec i q); destruct (Nat.eqb_spec l 0); subst; cbn [andb].
  - destruct (Nat.ltb_spec q (S q)); [auto|lia].
  - now rewrite !andb_false_r.
  - destruct (Nat.ltb_spec i q); destruct (Nat.ltb_spec i (S q)); auto; lia.
  - now rewrite !andb_false_r.
Qed.
Lemma maxAbs_ge x s : s <= maxAbs x s.
Proof. unfold maxAbs. destruct (Rlt_dec s (Rabs x)); lra. Qed.
Lemma scale_pos rows cols E B dblmin : 0 < dblmin -> 0 < scaleOf rows cols E B dblmin.
Proof.
  intros H. unfold scaleOf. apply (forUp_inv (fun _ s => 0 < s)); [lia|auto|]. intros i s _ Hs.
  apply (forUp_inv (fun _ s => 0 < s)); [lia| |].
  - pose proof (maxAbs_ge (B (rows + i)%nat 0%nat) s). lra.
  - intros j s' _ Hs'. pose proof (maxAbs_ge (E (i + rows)%nat (j + rows)%nat) s'). lra.
Qed.

Section Step.
Variables (rows cols : nat) (C : mat) (d : vec) (E B : mat) (dblmin tol : R) (h0 y0 rn hh g : vec) (p : nat -> nat).
Hypothesis (Ln : (rows <= cols)%nat).
Hypothesis (Ind : independent rows cols C).
Let x := fst (quadStep rows cols C d E B dblmin tol h0 y0 rn hh g p).
Let k := snd (quadStep rows cols C d E B dblmin tol h0 y0 rn hh g p).

Lemma quad_constraints : forall i, (i < rows)%nat -> sum cols (fun j => C i j * x j) = d i.
Proof.
  intros i Hi. unfold x, quadStep. pose proof (conDecomp_ok rows cols C h0 Ln) as CI.
  destruct (conDecomp rows cols C h0) as [C' h]. pose proof (diag_nonzero rows cols C C' h Ln Ind CI) as Dn.
  destruct CI as (wf & W1 & W2). cbn [fst snd] in W1, W2.
  set (y := conSolve rows C' d y0). destruct (project rows cols C' h y E B) as [E2 B2].
  destruct (solveQuad rows cols E2 B2 dblmin tol rn hh g p) as [B3 k']. cbn [fst].
  change (dot cols (C i) (column (reassemble rows cols C' h y B3) 0) = d i).
  unfold reassemble. set (B4 := forUp 0 rows (fun i B => put Col B 0 i (y i)) B3).
  rewrite (dot_ext cols (C i) (C i) _ (Kd cols wf rows (column B4 0))); auto.
  2:{ intros j Hj. apply (projDown_get rows cols C' h wf Ln W1 Col B4 0 1 0 j). }
  rewrite W2 by auto. unfold dot. rewrite (sum_split cols (S i)) by lia. rewrite (sum_0 (cols - S i)).
  - rewrite Rplus_0_r. rewrite <- (conSolve_ok rows C' d y0 Dn i Hi). fold y. apply sum_ext. intros j Hj. f_equal.
    + unfold lower. destruct (Nat.ltb_spec i rows); [|lia]. destruct (Nat.ltb_spec i j); [lia|auto].
    + unfold column, B4. rewrite putLoop. destruct (Nat.ltb_spec j rows); [auto|lia].
  - intros j Hj. unfold lower. destruct (Nat.ltb_spec i rows); [|lia]. destruct (Nat.ltb_spec i (S i + j)); [|lia]. cbn [andb]. ring.
Qed.

Lemma quad_stationary : 0 < dblmin -> 0 <= tol -> ((rows < cols)%nat -> k = (cols - rows)%nat) ->
  forall z, (forall i, (i < rows)%nat -> sum cols (fun j => C i j * z j) = 0) ->
  dot cols (fun i => apply cols E x i - B i 0%nat) z = 0.
Proof.
  intros Hdm Htol. unfold k, x, quadStep. pose proof (conDecomp_ok rows cols C h0 Ln) as CI.
  destruct (conDecomp rows cols C h0) as [C' h]. pose proof (diag_nonzero rows cols C C' h Ln Ind CI) as Dn.
  destruct CI as (wf & W1 & W2). cbn [fst snd] in W1, W2.
  set (y := conSolve rows C' d y0).
  (* the projected system *)
  unfold project. set (E1 := projUp Col rows cols C' h E 0 cols). set (E2 := projUp Row rows cols C' h E1 rows cols).
  set (B1 := projUp Col rows cols C' h B 0 1). set (B2 := forUp rows cols _ B1).
  pose proof (fun M from upto c q => projUp_get rows cols C' h wf Ln W1 Col M from upto c q) as PC.
  pose proof (fun M from upto c q => projUp_get rows cols C' h wf Ln W1 Row M from upto c q) as PR.
  destruct (solveQuad rows cols E2 B2 dblmin tol rn hh g p) as [B3 k'] eqn:Sol. cbn [fst snd]. intros Full z Hz.
  set (xx := column (reassemble rows cols C' h y B3) 0).
  set (Y := fun i => if (i <? rows)%nat then y i else B3 i 0%nat).
  assert (Xx : forall j, xx j = Kd cols wf rows Y j).
  { intros j. unfold xx, reassemble, column. etransitivity; [exact (projDown_get rows cols C' h wf Ln W1 Col (forUp 0 rows (fun i B => put Col B 0 i (y i)) B3) 0 1 0 j)|].
    cbn [Nat.leb Nat.ltb andb]. apply (Kd_pt rows cols wf Ln); [lia|]. intros q. cbn [get]. rewrite putLoop. unfold Y. cbn [Nat.eqb]. now rewrite andb_true_r. }
  (* z in the new coordinates has no component along the constraints *)
  destruct (Kd_orth cols wf rows) as (Ki & Kx & _ & Kl & _ & Kinv). set (z' := Ki z).
  assert (Zz : forall j, (j < cols)%nat -> z j = Kd cols wf rows z' j) by (intros j Hj; symmetry; now apply Kinv).
  assert (Z0 : forall r, (r < rows)%nat -> z' r = 0).
  { apply (lower_unique rows (lower rows C') z').
    - intros r Hr. unfold lower. destruct (Nat.ltb_spec r r); [lia|]. rewrite andb_false_r. now apply Dn.
    - intros r Hr. rewrite <- (Hz r Hr). change (sum cols (fun j => C r j * z j)) with (dot cols (C r) z).
      rewrite (dot_ext cols (C r) (C r) z (Kd cols wf rows z')) by auto. rewrite W2 by auto. unfold dot.
      rewrite (sum_split cols (S r)) by lia. rewrite (sum_0 (cols - S r)); [now rewrite Rplus_0_r|].
      intros j Hj. unfold lower. destruct (Nat.ltb_spec r rows); [|lia]. destruct (Nat.ltb_spec r (S r + j)); [|lia]. cbn [andb]. ring. }
  rewrite (dot_ext cols _ (fun i => apply cols E xx i - B i 0%nat) z (Kd cols wf rows z')) by auto.
  rewrite <- K_adj. unfold dot. rewrite (sum_split cols rows) by lia. rewrite (sum_0 rows) by (intros i Hi; rewrite Z0 by auto; ring).
  rewrite Rplus_0_l. apply sum_0. intros q Hq. set (i := (rows + q)%nat). assert (Hi : (rows <= i < cols)%nat) by (unfold i; lia).
  replace (Ku cols wf rows (fun i => apply cols E xx i - B i 0%nat) i) with 0; [ring|]. symmetry.
  (* K^T (E x - B) at i *)
  assert (KB : forall j, B1 j 0%nat = Ku cols wf rows (column B 0) j).
  { intros j. unfold B1. etransitivity; [exact (PC B 0%nat 1%nat 0%nat j)|]. reflexivity. }
  assert (KE : forall c j, (c < cols)%nat -> E1 j c = Ku cols wf rows (column E c) j).
  { intros c j Hc. unfold E1. etransitivity; [exact (PC E 0%nat cols c j)|]. replace ((0 <=? c)%nat && (c <? cols)%nat) with true by (symmetry; apply inRange; lia). reflexivity. }
  assert (KE2 : forall j, E2 i j = Ku cols wf rows (E1 i) j).
  { intros j. unfold E2. etransitivity; [exact (PR E1 rows cols i j)|]. replace ((rows <=? i)%nat && (i <? cols)%nat) with true by (symmetry; apply inRange; lia). reflexivity. }
  assert (Lin : forall (u : vec) (j : nat), (j < cols)%nat -> Ku cols wf rows (fun i => apply cols E u i - B i 0%nat) j = dot cols (E1 j) u - B1 j 0%nat).
  { intros u j Hj.
    assert (Dl : forall r, (r <= rows)%nat -> forall n j, Ku cols wf r (fun i => sum n (fun c => E i c * u c) - B i 0%nat) j = sum n (fun c => Ku cols wf r (column E c) j * u c) - Ku cols wf r (column B 0) j).
    { intros r Lr. induction r; intros n j'; [reflexivity|]. rewrite Ku_S.
      rewrite (stepQ_pt _ _ _ _ _ (fun j => sum n (fun c => Ku cols wf r (column E c) j * u c) - Ku cols wf r (column B 0) j)); [| lia | intros; apply IHr; lia].
      rewrite !Ku_S. revert j'. induction n; intros j'.
      - cbn [sum]. rewrite (stepQ_pt _ _ _ _ _ (fun j => Ku cols wf r (column B 0) j + -2 * Ku cols wf r (column B 0) j)); [| lia | intros; lra].
        unfold stepQ. destruct ((r <? r + 1)%nat && (r + 1 <? cols)%nat); [|lra]. destruct (Req_EM_T _ 0); [lra|]. rewrite refl_lin. lra.
      - cbn [sum]. rewrite (stepQ_pt _ _ _ _ _ (fun j => (sum n (fun c => Ku cols wf r (column E c) j * u c) - Ku cols wf r (column B 0) j) + u n * Ku cols wf r (column E n) j)); [| lia | intros; lra].
        match goal with |- stepQ ?p ?l ?m ?w ?f j' = _ =>
          assert (SL : stepQ p l m w f j' = stepQ p l m w (fun j => sum n (fun c => Ku cols wf r (column E c) j * u c) - Ku cols wf r (column B 0) j) j' + u n * stepQ p l m w (Ku cols wf r (column E n)) j') end.
        { unfold stepQ. destruct ((r <? r + 1)%nat && (r + 1 <? cols)%nat); [|lra]. destruct (Req_EM_T _ 0); [lra|]. now rewrite refl_lin. }
        rewrite SL, IHn. rewrite Ku_S. lra. }
    unfold apply. rewrite Dl by lia. rewrite KB. f_equal. unfold dot. apply sum_ext. intros c Hc. now rewrite KE. }
  rewrite Lin by lia. rewrite (dot_ext cols (E1 i) (E1 i) xx (Kd cols wf rows Y)) by auto. rewrite <- K_adj.
  rewrite (dot_ext cols _ (E2 i) Y Y) by (intros; auto; now rewrite KE2).
  (* the system solved by hfti *)
  assert (Lrc : (rows < cols)%nat) by lia. unfold solveQuad in Sol. destruct (Nat.ltb_spec rows cols); [|lia].
  set (sc := scaleOf rows cols E2 B2 dblmin) in *. assert (Sp : 0 < sc) by (apply scale_pos; auto).
  set (aa := fun i j => E2 (i + rows)%nat (j + rows)%nat / sc) in *. set (bb := fun i l => B2 (rows + i)%nat l / sc) in *.
  destruct (hfti_ok aa (cols - rows) (cols - rows) bb 1 tol rn hh g p (Nat.le_refl _) Htol) as (A' & _ & EA & HA).
  set (o := hfti aa (cols - rows) (cols - rows) bb 1 tol rn hh g p) in *. inversion Sol as [[S3 Sk]]. rewrite <- Sk in Full. specialize (Full Lrc).
  destruct (HA 0%nat ltac:(lia)) as (_ & Rn & Z). specialize (Z Full). specialize (EA Full). rewrite Z in Rn. symmetry in Rn.
  apply sqrt_eq_0 in Rn; [|apply norm2_pos]. pose proof (norm2_zero _ _ Rn q ltac:(lia)) as Eq. cbn beta in Eq.
  unfold apply, column in Eq.
  assert (B2i : B2 i 0%nat = B1 i 0%nat - sum rows (fun j => E2 i j * y j)).
  { unfold B2. rewrite (subLoop rows cols E2 y B1 i 0 cols) by lia. replace ((rows <=? i)%nat && (i <? cols)%nat) with true by (symmetry; apply inRange; lia). reflexivity. }
  unfold dot. rewrite (sum_split cols rows) by lia.
  rewrite (sum_ext rows (fun j => E2 i j * Y j) (fun j => E2 i j * y j)) by (intros j Hj; unfold Y; destruct (Nat.ltb_spec j rows); [auto|lia]).
  rewrite (sum_ext (cols - rows) (fun j => E2 i (rows + j)%nat * Y (rows + j)%nat) (fun j => sc * (A' q j * ob o j 0%nat))).
  - rewrite sum_scal. replace (sum (cols - rows) (fun j => A' q j * ob o j 0%nat)) with (bb q 0%nat) by lra.
    unfold bb. fold i. rewrite B2i. field. lra.
  - intros j Hj. rewrite EA by lia. unfold aa, Y. rewrite <- S3. destruct (Nat.ltb_spec (rows + j) rows); [lia|].
    replace ((rows <=? rows + j)%nat && (rows + j <? cols)%nat) with true by (symmetry; apply inRange; lia). cbn [Nat.eqb andb].
    replace (rows + j - rows)%nat with j by lia. unfold i. replace (q + rows)%nat with (rows + q)%nat by lia. replace (j + rows)%nat with (rows + j)%nat by lia.
    field. lra.
Qed.
End Step.
