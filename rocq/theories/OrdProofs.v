(** Solution phases with ordering parameters: total derivatives along the
    branch of stationary ordering states. *)
From Coq Require Import Reals QArith Qreals ZArith NArith Arith List Lia Lra Bool FunctionalExtensionality.
From Coquelicot Require Import Coquelicot.
From Verif Require Import RealTac Sym SymNorm SymPath SolnModel SolnSpec LaSpec LuModel LuProps OrdLimits OrdModel OrdCheck OrdSpec.
Import List ListNotations.
Local Open Scope R_scope.

Section Phase.
Variable ph : ordPhase.
Hypothesis C0 : check0 ph = true.
Hypothesis C1 : check1 ph = true.
Hypothesis C2 : check2 ph = true.
Hypothesis C3 : check3 ph = true.
Notation NS := (o_ns ph).
Notation ss := (o_sites ph).
Notation nv := (nvars ph).

(** ** What the checks give *)
Definition valid (v : var) : Prop := match v with vT | vP => True | vR i => (i < o_nr ph)%nat | vS k => (k < NS)%nat end.
Definition outer (v : var) : Prop := valid v /\ match v with vS _ => False | _ => True end.
Definition num (v : var) : nat := match v with vT => 0 | vP => 1 | vR i => 2 + i | vS k => 2 + o_nr ph + k end.
Lemma num_lt v : valid v -> (num v < nv)%nat.
Proof. unfold nvars. destruct v; cbn; lia. Qed.
Lemma num_at v : valid v -> varAt ph (num v) = v.
Proof.
  destruct v; cbn [valid num]; intros H; try reflexivity.
  - cbn [varAt Nat.add]. destruct (Nat.ltb_spec i (o_nr ph)); [reflexivity|lia].
  - replace (2 + o_nr ph + k)%nat with (S (S (o_nr ph + k))) by lia. cbn [varAt]. destruct (Nat.ltb_spec (o_nr ph + k) (o_nr ph)); [lia|].
    f_equal. lia.
Qed.
Lemma at_valid a : (a < nv)%nat -> valid (varAt ph a).
Proof.
  unfold nvars. destruct a as [|[|a]]; intros H; try exact I. cbn [varAt]. destruct (Nat.ltb_spec a (o_nr ph)); cbn [valid]; lia.
Qed.
Lemma forall_upto f : forallb f (upto ph) = true -> forall a, (a < nv)%nat -> f a = true.
Proof. intros H a Ha. rewrite forallb_forall in H. apply H. unfold upto. apply in_seq. lia. Qed.
Lemma fits_ok x : fits ph x = true -> domOk ss pos0 x = true /\ varsIn (codes ph) nv x = true.
Proof. unfold fits. intros H. now apply andb_prop in H. Qed.
Notation fit x := (fits ph x = true).
Lemma tab1 v : valid v -> fit (o_g ph) /\ fit (d1 ph v) /\ derives ss pos0 (code v) (o_g ph) (d1 ph v).
Proof.
  intros V. pose proof C1 as K. unfold check1 in K. apply andb_prop in K. destruct K as [K1 K].
  apply (forall_upto _) with (a := num v) in K; [|now apply num_lt]. unfold codes in K. rewrite num_at in K by auto.
  apply andb_prop in K. destruct K as [K2 K3]. apply deriveCheck_ok in K3. auto.
Qed.
Lemma tab2 v w : valid v -> valid w -> fit (d2 ph v w) /\ derives ss pos0 (code w) (d1 ph v) (d2 ph v w) /\ same ss pos0 (d2 ph v w) (d2 ph w v).
Proof.
  intros V W. pose proof C2 as K. unfold check2 in K.
  apply (forall_upto _) with (a := num v) in K; [|now apply num_lt]. apply (forall_upto _) with (a := num w) in K; [|now apply num_lt].
  unfold codes in K. rewrite !num_at in K by auto. apply andb_prop in K. destruct K as [K K3]. apply andb_prop in K. destruct K as [K1 K2].
  apply deriveCheck_ok in K2. apply sameCheck_ok in K3. auto.
Qed.
Lemma tab3 u v w : valid u -> valid v -> valid w ->
  derives ss pos0 (code w) (d2 ph u v) (d3 ph u v w) /\ same ss pos0 (d3 ph u v w) (d3 ph v u w) /\ same ss pos0 (d3 ph u v w) (d3 ph u w v).
Proof.
  intros U V W. pose proof C3 as K. unfold check3 in K.
  apply (forall_upto _) with (a := num u) in K; [|now apply num_lt]. apply (forall_upto _) with (a := num v) in K; [|now apply num_lt].
  apply (forall_upto _) with (a := num w) in K; [|now apply num_lt].
  unfold codes in K. rewrite !num_at in K by auto. apply andb_prop in K. destruct K as [K K4]. apply andb_prop in K. destruct K as [K K3]. apply andb_prop in K. destruct K as [K1 K2].
  apply deriveCheck_ok in K2. apply sameCheck_ok in K3, K4. auto.
Qed.
Lemma basics : sitesOk ss = true /\ sitesIn ss (codes ph) nv = true /\ distinct (codes ph) nv = true /\ (1 <= NS)%nat /\ (o_nr ph < 38)%nat /\ (o_method ph = Inverse -> NS = 1%nat).
Proof.
  pose proof C0 as K. unfold check0 in K.
  apply andb_prop in K. destruct K as [K K6]. apply andb_prop in K. destruct K as [K K5]. apply andb_prop in K. destruct K as [K K4].
  apply andb_prop in K. destruct K as [K K3]. apply andb_prop in K. destruct K as [K1 K2]. apply Nat.leb_le in K4. apply Nat.ltb_lt in K5.
  repeat split; auto. intros E. rewrite E in K6. now apply Nat.eqb_eq in K6.
Qed.

(** ** Points, coordinate lines *)
Variable sv : R -> R -> (nat -> R) -> nat -> R.
Variable slv : R -> R -> (nat -> R) -> vec -> vec.
Variable D : R -> R -> (nat -> R) -> Prop.
Hypothesis Or : ordered ph sv slv D.

Notation pnt := (R * R * (nat -> R))%type.
Definition mv (o : var) (y : R) (q : pnt) : pnt :=
  match o with vT => (y, snd (fst q), snd q) | vP => (fst (fst q), y, snd q) | vR i => (fst q, upd (snd q) i y) | vS _ => q end.
Definition co (o : var) (q : pnt) : R := match o with vT => fst (fst q) | vP => snd (fst q) | vR i => snd q i | vS _ => 0 end.
Lemma mv_id o q : mv o (co o q) q = q.
Proof.
  destruct q as [[t p] r]. destruct o; cbn; auto. f_equal. apply functional_extensionality. intros j. unfold upd.
  destruct (Nat.eqb_spec j i); subst; auto.
Qed.
Definition at3 {A} (F : R -> R -> (nat -> R) -> A) (q : pnt) : A := F (fst (fst q)) (snd (fst q)) (snd q).
Notation Dq := (at3 D).
Notation svq := (at3 sv).
Notation slq := (at3 slv).
Definition E (q : pnt) (x : expr) : R := at3 (ev ph sv) q x.
Definition pd (o : var) (F : pnt -> R) (q : pnt) (d : R) : Prop := is_derive (fun y => F (mv o y q)) (co o q) d.
Definition pe (q : pnt) : env := opt (fst (fst q)) (snd (fst q)) (snd q) (svq q).
Lemma D_open o q : outer o -> Dq q -> locally (co o q) (fun y => Dq (mv o y q)).
Proof.
  destruct q as [[t p] r]. intros [V O] H. destruct o; try contradiction.
  - exact (ord_openT _ _ _ _ Or t p r H).
  - exact (ord_openP _ _ _ _ Or t p r H).
  - exact (ord_openX _ _ _ _ Or t p r i H V).
Qed.
Lemma sv_cont o q k : outer o -> Dq q -> (k < NS)%nat -> filterlim (fun y => svq (mv o y q) k) (locally (co o q)) (locally (svq q k)).
Proof.
  destruct q as [[t p] r]. intros [V O] H L. destruct o; try contradiction.
  - exact (ord_contT _ _ _ _ Or t p r k H L).
  - exact (ord_contP _ _ _ _ Or t p r k H L).
  - exact (ord_contX _ _ _ _ Or t p r i k H V L).
Qed.
Lemma q_inside q : Dq q -> inside ss pos0 (pe q).
Proof. destruct q as [[t p] r]. apply (ord_inside _ _ _ _ Or). Qed.
Lemma stationary q k : Dq q -> (k < NS)%nat -> E q (d1 ph (vS k)) = 0.
Proof. destruct q as [[t p] r]. apply (ord_stationary _ _ _ _ Or). Qed.
Lemma regularH q : Dq q -> nonsingular NS (fun k l => E q (d2 ph (vS k) (vS l))).
Proof. destruct q as [[t p] r]. apply (ord_regular _ _ _ _ Or). Qed.
Lemma E_denote q x : E q x = denote ss (pe q) x. Proof. reflexivity. Qed.

(** values of the variables along a line *)
Definition coordv (v : var) (q : pnt) : R := match v with vT => fst (fst q) | vP => snd (fst q) | vR i => snd q i | vS k => svq q k end.
Lemma pe_code v q : valid v -> pe q (code v) = coordv v q.
Proof.
  pose proof basics as (_ & _ & _ & _ & B & _). destruct v; cbn [valid code coordv]; intros V; try reflexivity.
  - unfold pe, opt. destruct (N.of_nat (2 + i)) as [|n] eqn:En; [lia|]. rewrite <- En.
    destruct (N.ltb_spec (N.of_nat (2 + i)) 40); [|lia]. destruct n; try (replace (N.to_nat (N.of_nat (2 + i)) - 2)%nat with i by lia; reflexivity). lia.
  - unfold pe, opt. destruct (N.of_nat (40 + k)) as [|n] eqn:En; [lia|]. rewrite <- En.
    destruct (N.ltb_spec (N.of_nat (40 + k)) 40); [lia|]. destruct n; try (replace (N.to_nat (N.of_nat (40 + k)) - 40)%nat with k by lia; reflexivity). lia.
Qed.
Definition dl (o v : var) : R :=
  match o, v with vT, vT => 1 | vP, vP => 1 | vR i, vR j => if Nat.eqb j i then 1 else 0 | _, _ => 0 end.
Lemma coordv_outer o v q : outer o -> valid v -> (forall k, v <> vS k) -> is_derive (fun y => coordv v (mv o y q)) (co o q) (dl o v).
Proof.
  intros [V O] W Nv. destruct q as [[t p] r]. destruct o; try contradiction; destruct v; cbn;
    try (exact (is_derive_id (K:=R_AbsRing) _)); try (exact (is_derive_const (K:=R_AbsRing) _ _)); try (exfalso; now apply (Nv k)).
  unfold upd. destruct (Nat.eqb_spec i0 i); [exact (is_derive_id (K:=R_AbsRing) _)|exact (is_derive_const (K:=R_AbsRing) _ _)].
Qed.

(** ** The linear solver *)
Lemma apply_sum A x i : apply NS A x i = sum NS (fun j => A i j * x j). Proof. reflexivity. Qed.
Lemma nonsing_neg A : nonsingular NS A -> nonsingular NS (fun k l => - A k l).
Proof.
  intros (B & I1 & I2). exists (fun k l => - B k l). split; intros i j Hi Hj; [rewrite <- (I1 i j) by auto|rewrite <- (I2 i j) by auto]; apply sumx; intros; ring.
Qed.
Lemma nonsing_rows A : nonsingular NS A -> forall j, (j < NS)%nat -> ~ nullRow NS A j.
Proof.
  intros (B & I1 & I2) j Hj Z. pose proof (I1 j j Hj Hj) as K. unfold delta in K. rewrite Nat.eqb_refl in K.
  rewrite sum_zer in K; [lra|]. intros i Hi. rewrite Z by auto. ring.
Qed.
Lemma nonsing_regular A : nonsingular NS A -> regular NS A.
Proof.
  intros (B & I) v _ H j Hj. rewrite (inverse_solve NS A B v (fun _ => 0) I H j Hj). apply sum_zer. intros. ring.
Qed.
Lemma solver q b : Dq q -> forall k, (k < NS)%nat -> sum NS (fun l => E q (d2 ph (vS k) (vS l)) * slq q b l) = - b k.
Proof.
  intros Hq k Hk. pose proof (regularH q Hq) as Rg. apply nonsing_neg in Rg.
  assert (L : library (o_method ph) NS (fun k l => - E q (d2 ph (vS k) (vS l))) (slq q)).
  { destruct q as [[t p] r]. exact (ord_library _ _ _ _ Or t p r Hq). }
  assert (H : sum NS (fun l => - E q (d2 ph (vS k) (vS l)) * slq q b l) = b k).
  2:{ rewrite <- H, <- sum_neg. apply sumx. intros. ring. }
  pose proof basics as (_ & _ & _ & B1 & _ & B2).
  destruct (o_method ph) eqn:M; unfold library in L.
  - destruct L as (F & pm & Dc & Sv). rewrite Sv.
    destruct (C30_no_null_rows NS _ F pm b ltac:(lia) (nonsing_rows _ Rg) (nonsing_regular _ Rg) Dc) as [S _].
    exact (S k Hk (nonsing_rows _ Rg k Hk)).
  - exact (L b k Hk).
  - specialize (B2 eq_refl). destruct Rg as (B & I1 & _). specialize (I1 O O ltac:(lia) ltac:(lia)).
    rewrite B2 in *. assert (k = O) by lia. subst k. cbn [sum]. cbn [sum] in I1. unfold delta in I1. cbn [Nat.eqb] in I1. rewrite (L b).
    rewrite Rplus_0_l in *. cbv beta. set (a := - E q (d2 ph (vS 0) (vS 0))) in *. clearbody a. assert (a <> 0). { intros Z. rewrite Z in I1. lra. } field. auto.
Qed.
Lemma sameE q x y : Dq q -> same ss pos0 x y -> E q x = E q y.
Proof. intros Hq S. rewrite !E_denote. apply S. now apply q_inside. Qed.
Lemma sym2 q v w : Dq q -> valid v -> valid w -> E q (d2 ph v w) = E q (d2 ph w v).
Proof. intros Hq V W. apply sameE; auto. now apply tab2. Qed.
Lemma sym3a q u v w : Dq q -> valid u -> valid v -> valid w -> E q (d3 ph u v w) = E q (d3 ph v u w).
Proof. intros Hq U V W. apply sameE; auto. now apply tab3. Qed.
Lemma sym3b q u v w : Dq q -> valid u -> valid v -> valid w -> E q (d3 ph u v w) = E q (d3 ph u w v).
Proof. intros Hq U V W. apply sameE; auto. now apply tab3. Qed.

(** ** The chain rule along a coordinate line *)
Lemma sum_vars (f : var -> R) : sum nv (fun a => f (varAt ph a)) = f vT + f vP + sum (o_nr ph) (fun i => f (vR i)) + sum NS (fun k => f (vS k)).
Proof.
  unfold nvars. rewrite sum_app. rewrite (LuProps.sum_app 2 (o_nr ph)). cbn [sum varAt].
  rewrite (sumx (o_nr ph) (fun i => f (varAt ph (2 + i))) (fun i => f (vR i))).
  2:{ intros i Hi. f_equal. apply (num_at (vR i)). exact Hi. }
  rewrite (sumx NS (fun i => f (varAt ph (2 + o_nr ph + i))) (fun i => f (vS i))).
  2:{ intros i Hi. f_equal. apply (num_at (vS i)). exact Hi. }
  ring.
Qed.
Definition dirv (o : var) (ds : nat -> R) (v : var) : R := match v with vS k => ds k | _ => dl o v end.
Lemma sum_dir o ds (f : var -> R) : outer o -> sum nv (fun a => f (varAt ph a) * dirv o ds (varAt ph a)) = f o + sum NS (fun k => f (vS k) * ds k).
Proof.
  intros [V O]. rewrite (sum_vars (fun v => f v * dirv o ds v)). cbn [dirv].
  destruct o; try contradiction; cbn [dl].
  - rewrite (sum_zer (o_nr ph)) by (intros; ring). ring.
  - rewrite (sum_zer (o_nr ph)) by (intros; ring). ring.
  - rewrite (sumx (o_nr ph) _ (fun j => delta i j * f (vR j))), sum_dl by
      (auto; intros j _; unfold delta; rewrite (Nat.eqb_sym j i); ring). ring.
Qed.
Lemma co_mv_cont o q v : outer o -> Dq q -> valid v ->
  filterlim (fun y => pe (mv o y q) (code v)) (locally (co o q)) (locally (pe (mv o (co o q) q) (code v))).
Proof.
  intros Oo Hq V. rewrite mv_id. rewrite pe_code by auto.
  apply (filterlim_ext (fun y => coordv v (mv o y q))). { intros y. now rewrite pe_code. }
  destruct (match v with vS k => true | _ => false end) eqn:K.
  - destruct v; try discriminate. apply sv_cont; auto.
  - assert (Nv : forall k, v <> vS k) by (intros k ->; discriminate).
    pose proof (coordv_outer o v q Oo V Nv) as Dv.
    assert (Ec : coordv v q = coordv v (mv o (co o q) q)) by now rewrite mv_id. rewrite Ec.
    apply (ex_derive_continuous (K:=R_AbsRing) (V:=R_NormedModule) (fun y => coordv v (mv o y q))). eexists. exact Dv.
Qed.
Lemma line_derive o q x (d : var -> expr) ds : outer o -> Dq q -> fit x ->
  (forall v, valid v -> derives ss pos0 (code v) x (d v)) ->
  (forall k, (k < NS)%nat -> pd o (fun q => svq q k) q (ds k)) ->
  pd o (fun q => E q x) q (E q (d o) + sum NS (fun k => E q (d (vS k)) * ds k)).
Proof.
  intros Oo Hq Fx Dx Ds. pose proof basics as (B1 & B2 & B3 & _). apply fits_ok in Fx. destruct Fx as [F1 F2].
  unfold pd. eapply is_derive_eq'.
  - apply (path_derive ss (codes ph) nv pos0 B1 B2 B3 (fun y => pe (mv o y q)) (co o q)) with (d := fun a => d (varAt ph a)) (dv := fun a => dirv o ds (varAt ph a)); auto.
    + rewrite mv_id. now apply q_inside.
    + intros a Ha. apply co_mv_cont; auto. now apply at_valid.
    + intros a Ha. apply Dx. now apply at_valid.
    + intros a Ha. pose proof (at_valid a Ha) as V. unfold codes. set (v := varAt ph a) in *. clearbody v.
      apply (is_derive_ext (fun y => coordv v (mv o y q))). { intros y. now rewrite pe_code. }
      destruct v; try (apply coordv_outer; auto; intros ?; discriminate). cbn [coordv dirv]. now apply Ds.
  - cbv beta. rewrite (sum_dir o ds (fun v => denote ss (pe (mv o (co o q) q)) (d v)) Oo). rewrite mv_id. reflexivity.
Qed.

(** ** The ordering state is differentiable *)
Lemma at_num a : (a < nv)%nat -> num (varAt ph a) = a.
Proof.
  unfold nvars. destruct a as [|[|a]]; intros H; try reflexivity. cbn [varAt]. destruct (Nat.ltb_spec a (o_nr ph)); cbn [num]; lia.
Qed.
Lemma coordv_change o v q y : outer o -> valid v -> (forall k, v <> vS k) -> coordv v (mv o y q) - coordv v q = dl o v * (y - co o q).
Proof.
  intros [V O] W Nv. destruct q as [[t p] r]. destruct o; try contradiction; destruct v; try (exfalso; now apply (Nv k)); cbn [coordv mv co fst snd dl]; try ring.
  unfold upd. destruct (Nat.eqb_spec i0 i); subst; ring.
Qed.
Lemma fin_choice {X} (P : nat -> X -> Prop) (x0 : X) n : (forall i, (i < n)%nat -> exists x, P i x) -> exists f : nat -> X, forall i, (i < n)%nat -> P i (f i).
Proof.
  induction n as [|n IH]; intros H. { exists (fun _ => x0). intros; lia. }
  destruct IH as (f & Hf). { intros. apply H. lia. } destruct (H n ltac:(lia)) as (x & Hx).
  exists (fun i => if Nat.eqb i n then x else f i). intros i Hi. destruct (Nat.eqb_spec i n); subst; auto. apply Hf. lia.
Qed.
Lemma sv_slopes o q i : outer o -> Dq q -> (i < NS)%nat -> exists w : nat -> R -> R,
  locally (co o q) (fun y => w (num o) y * (y - co o q) + sum NS (fun k => w (num (vS k)) y * (svq (mv o y q) k - svq q k)) = 0) /\
  (forall v, valid v -> filterlim (w (num v)) (locally (co o q)) (locally (E q (d2 ph (vS i) v)))).
Proof.
  intros Oo Hq Hi. pose proof basics as (B1 & B2 & B3 & _).
  assert (Vi : valid (vS i)) by exact Hi.
  destruct (tab1 (vS i) Vi) as (_ & Fx & _). apply fits_ok in Fx. destruct Fx as [F1 F2].
  destruct (path_slopes ss (codes ph) nv pos0 B1 B2 B3 (fun y => pe (mv o y q)) (co o q)) with (x := d1 ph (vS i)) (d := fun a => d2 ph (vS i) (varAt ph a)) as (w & W1 & W2); auto.
  { rewrite mv_id. now apply q_inside. }
  { intros a Ha. apply co_mv_cont; auto. now apply at_valid. }
  { intros a Ha. apply tab2; auto. now apply at_valid. }
  exists w. split.
  - generalize (filter_and _ _ W1 (D_open o q Oo Hq)). apply filter_imp. intros y [S Dy].
    change (E (mv o y q) (d1 ph (vS i)) - E (mv o (co o q) q) (d1 ph (vS i)) = sum nv (fun k => w k y * (pe (mv o y q) (codes ph k) - pe (mv o (co o q) q) (codes ph k)))) in S.
    rewrite mv_id in S. rewrite (stationary _ i Dy Hi), (stationary _ i Hq Hi) in S. rewrite Rminus_eq_0 in S. rewrite S.
    set (f := fun v => match v with vS k => w (num v) y | _ => w (num v) y * (y - co o q) end).
    rewrite (sumx nv _ (fun a => f (varAt ph a) * dirv o (fun k => svq (mv o y q) k - svq q k) (varAt ph a))).
    + rewrite (sum_dir o _ f Oo). unfold f. destruct Oo as [Vo Oo]. destruct o; try contradiction; reflexivity.
    + intros a Ha. pose proof (at_valid a Ha) as V. unfold codes. rewrite !pe_code by auto.
      rewrite <- (at_num a Ha) at 1. set (v := varAt ph a) in *. clearbody v. unfold f.
      destruct v; cbn [dirv]; try (rewrite coordv_change by (auto; intros ?; discriminate); ring). reflexivity.
  - intros v V. specialize (W2 (num v) (num_lt v V)). rewrite num_at in W2 by auto. rewrite mv_id in W2. exact W2.
Qed.
Definition s1 (o : var) (q : pnt) (k : nat) : R := slq q (fun l => E q (d2 ph o (vS l))) k.
Lemma E1 o q k : Dq q -> (k < NS)%nat -> sum NS (fun l => E q (d2 ph (vS k) (vS l)) * s1 o q l) = - E q (d2 ph o (vS k)).
Proof. intros Hq Hk. exact (solver q _ Hq k Hk). Qed.
Theorem state_derive o q k : outer o -> Dq q -> (k < NS)%nat -> pd o (fun q => svq q k) q (s1 o q k).
Proof.
  intros Oo Hq Hk. destruct (regularH q Hq) as (B & Iv).
  destruct (fin_choice _ (fun _ _ => 0) NS (fun i Hi => sv_slopes o q i Oo Hq Hi)) as (w & W).
  unfold pd. eapply is_derive_eq'.
  - apply (implicit_derive NS (co o q) _ B Iv (fun i k => w i (num (vS k))) (fun i => w i (num o)) (fun k y => svq (mv o y q) k) (fun i => E q (d2 ph (vS i) o))).
    + intros i j Hi Hj. apply W; auto.
    + intros i Hi. apply W; auto. apply Oo.
    + assert (L : forall m, (m <= NS)%nat -> locally (co o q) (fun y => forall i, (i < m)%nat ->
         w i (num o) y * (y - co o q) + sum NS (fun k => w i (num (vS k)) y * (svq (mv o y q) k - svq (mv o (co o q) q) k)) = 0)).
      { rewrite mv_id. induction m as [|m IH]; intros Hm. { apply filter_forall. intros; lia. }
        pose proof (IH ltac:(lia)) as I1. pose proof (proj1 (W m ltac:(lia))) as I2. generalize (filter_and _ _ I1 I2). apply filter_imp. intros y [A1 A2] i Hi.
        destruct (Nat.eq_dec i m); subst; auto. apply A1. lia. }
      exact (L NS (le_n _)).
    + exact Hk.
  - symmetry. apply (inverse_solve NS _ B _ (fun i => - E q (d2 ph (vS i) o)) Iv); auto. intros i Hi. rewrite E1 by auto.
    f_equal. apply sym2; auto. apply Oo.
Qed.
(** a formula known with its partial derivatives, along the branch *)
Lemma branch_derive o q x (d : var -> expr) : outer o -> Dq q -> fit x ->
  (forall v, valid v -> derives ss pos0 (code v) x (d v)) ->
  pd o (fun q => E q x) q (E q (d o) + sum NS (fun k => E q (d (vS k)) * s1 o q k)).
Proof. intros Oo Hq Fx Dx. apply line_derive; auto. intros k Hk. now apply state_derive. Qed.

(** ** First and second derivatives of the state and the energy *)
Lemma G_o o q : outer o -> Dq q -> pd o (fun q => E q (o_g ph)) q (E q (d1 ph o)).
Proof.
  intros Oo Hq. eapply is_derive_eq'; [apply (branch_derive o q (o_g ph) (d1 ph) Oo Hq)|].
  - apply (tab1 vT I).
  - intros v V. now apply tab1.
  - match goal with |- ?a = ?b => change (@eq R a b) end. rewrite sum_zer; [ring|]. intros k Hk. rewrite stationary by auto. ring.
Qed.
Definition Q2s (o o' : var) (q : pnt) : R := E q (d2 ph o o') + sum NS (fun k => E q (d2 ph o (vS k)) * s1 o' q k).
Lemma G_oo o o' q : outer o -> outer o' -> Dq q -> pd o' (fun q => E q (d1 ph o)) q (Q2s o o' q).
Proof.
  intros Oo Oo' Hq. apply branch_derive with (d := fun v => d2 ph o v); auto.
  - now apply tab1, Oo.
  - intros v V. apply tab2; auto. apply Oo.
Qed.
Lemma d2_branch v w o q : valid v -> valid w -> outer o -> Dq q ->
  pd o (fun q => E q (d2 ph v w)) q (E q (d3 ph v w o) + sum NS (fun k => E q (d3 ph v w (vS k)) * s1 o q k)).
Proof.
  intros V W Oo Hq. apply branch_derive with (d := fun u => d3 ph v w u); auto.
  - now apply tab2.
  - intros u U. apply tab3; auto.
Qed.
Definition rhs2 (o o' : var) (q : pnt) (l : nat) : R :=
  E q (d3 ph o o' (vS l)) + sum NS (fun m => E q (d3 ph o (vS l) (vS m)) * s1 o' q m + E q (d3 ph o' (vS l) (vS m)) * s1 o q m
    + sum NS (fun n => E q (d3 ph (vS l) (vS m) (vS n)) * s1 o q m * s1 o' q n)).
Definition s2 (o o' : var) (q : pnt) (k : nat) : R := slq q (rhs2 o o' q) k.
Lemma E2 o o' q k : Dq q -> (k < NS)%nat -> sum NS (fun l => E q (d2 ph (vS k) (vS l)) * s2 o o' q l) = - rhs2 o o' q k.
Proof. intros Hq Hk. exact (solver q _ Hq k Hk). Qed.
Theorem state_derive2 o o' q k : outer o -> outer o' -> Dq q -> (k < NS)%nat -> pd o' (fun q => s1 o q k) q (s2 o o' q k).
Proof.
  intros Oo Oo' Hq Hk. destruct (regularH q Hq) as (B & Iv). unfold pd. eapply is_derive_eq'.
  - apply (linear_derive NS (co o' q) _ B Iv (fun i j y => E (mv o' y q) (d2 ph (vS i) (vS j))) (fun i j => E q (d3 ph (vS i) (vS j) o') + sum NS (fun k => E q (d3 ph (vS i) (vS j) (vS k)) * s1 o' q k))
      (fun i y => - E (mv o' y q) (d2 ph o (vS i))) (fun k y => s1 o (mv o' y q) k) (fun i => - (E q (d3 ph o (vS i) o') + sum NS (fun k => E q (d3 ph o (vS i) (vS k)) * s1 o' q k)))).
    + intros i j Hi Hj. now rewrite mv_id.
    + intros i j Hi Hj. apply d2_branch; auto.
    + intros i Hi. apply (is_derive_opp (K:=R_AbsRing) (V:=R_NormedModule)). apply d2_branch; auto. apply Oo.
    + generalize (D_open o' q Oo' Hq). apply filter_imp. intros y Dy i Hi. now apply E1.
    + exact Hk.
  - symmetry. apply (inverse_solve NS _ B _ _ Iv); auto. intros i Hi. rewrite E2 by auto. rewrite mv_id. unfold rhs2.
    assert (Vi : valid (vS i)) by exact Hi. destruct Oo as [Vo _], Oo' as [Vo' _].
    rewrite (sym3b q o (vS i) o') by auto. rewrite !OrdLimits.sum_add.
    rewrite (sumx NS (fun m => (E q (d3 ph (vS i) (vS m) o') + sum NS (fun k => E q (d3 ph (vS i) (vS m) (vS k)) * s1 o' q k)) * s1 o q m)
       (fun m => E q (d3 ph o' (vS i) (vS m)) * s1 o q m + sum NS (fun n => E q (d3 ph (vS i) (vS m) (vS n)) * s1 o q m * s1 o' q n))).
    { rewrite OrdLimits.sum_add. ring. }
    intros m Hm. assert (Vm : valid (vS m)) by exact Hm. rewrite (sym3b q (vS i) (vS m) o') by auto. rewrite (sym3a q (vS i) o' (vS m)) by auto.
    rewrite Rmult_plus_distr_r, <- sum_mulr. f_equal. apply sumx. intros. ring.
Qed.

(** ** Third derivatives *)
Lemma split2 n (a : nat -> R) b : sum n (fun k => a k + sum n (fun l => b k l)) = sum n a + sum n (fun k => sum n (fun l => b k l)).
Proof. apply OrdLimits.sum_add. Qed.
Lemma split3 n (a : nat -> R) b c : sum n (fun k => a k + sum n (fun l => b k l + sum n (fun m => c k l m)))
  = sum n a + sum n (fun k => sum n (fun l => b k l)) + sum n (fun k => sum n (fun l => sum n (fun m => c k l m))).
Proof.
  rewrite split2. rewrite Rplus_assoc. f_equal. rewrite <- OrdLimits.sum_add. apply sumx. intros k _. apply split2.
Qed.
Lemma symm2 n (f g : nat -> nat -> R) : (forall k l, (k < n)%nat -> (l < n)%nat -> f k l + f l k = g k l + g l k) ->
  sum n (fun k => sum n (fun l => f k l)) = sum n (fun k => sum n (fun l => g k l)).
Proof.
  intros H.
  assert (A : forall h : nat -> nat -> R, 2 * sum n (fun k => sum n (fun l => h k l)) = sum n (fun k => sum n (fun l => h k l + h l k))).
  { intros h. rewrite (sumx n (fun k => sum n (fun l => h k l + h l k)) (fun k => sum n (fun l => h k l) + sum n (fun l => h l k))) by (intros; apply OrdLimits.sum_add).
    rewrite OrdLimits.sum_add. rewrite (sum_swp n n (fun k l => h l k)). ring. }
  assert (2 * sum n (fun k => sum n (fun l => f k l)) = 2 * sum n (fun k => sum n (fun l => g k l))); [|lra].
  rewrite !A. apply sumx. intros. apply sumx. intros. auto.
Qed.
Lemma cong2 n (f g : nat -> nat -> R) : (forall k l, (k < n)%nat -> (l < n)%nat -> f k l = g k l) ->
  sum n (fun k => sum n (fun l => f k l)) = sum n (fun k => sum n (fun l => g k l)).
Proof. intros H. apply sumx. intros. apply sumx. auto. Qed.
Lemma cong3 n (f g : nat -> nat -> nat -> R) : (forall k l m, (k < n)%nat -> (l < n)%nat -> (m < n)%nat -> f k l m = g k l m) ->
  sum n (fun k => sum n (fun l => sum n (fun m => f k l m))) = sum n (fun k => sum n (fun l => sum n (fun m => g k l m))).
Proof. intros H. apply sumx. intros. apply sumx. intros. apply sumx. auto. Qed.

Definition F3s (o1 o2 o3 : var) (q : pnt) : R :=
  E q (d3 ph o1 o2 o3) + sum NS (fun k => E q (d3 ph o1 o2 (vS k)) * s1 o3 q k)
  + sum NS (fun k => (E q (d3 ph o1 (vS k) o3) + sum NS (fun l => E q (d3 ph o1 (vS k) (vS l)) * s1 o3 q l)) * s1 o2 q k + E q (d2 ph o1 (vS k)) * s2 o2 o3 q k).
Lemma sum_derive n (f : nat -> R -> R) (d : nat -> R) y0 : (forall k, (k < n)%nat -> is_derive (f k) y0 (d k)) ->
  is_derive (fun y => sum n (fun k => f k y)) y0 (sum n d).
Proof.
  induction n as [|n IH]; intros H; cbn [sum]. { exact (is_derive_const (K:=R_AbsRing) _ _). }
  apply (is_derive_plus (K:=R_AbsRing) (V:=R_NormedModule)); auto.
Qed.
Lemma G_ooo o1 o2 o3 q : outer o1 -> outer o2 -> outer o3 -> Dq q -> pd o3 (Q2s o1 o2) q (F3s o1 o2 o3 q).
Proof.
  intros O1 O2 O3 Hq. unfold pd, Q2s, F3s.
  apply (is_derive_plus (K:=R_AbsRing) (V:=R_NormedModule)); [apply d2_branch; auto; [apply O1|apply O2]|].
  apply (sum_derive NS (fun k y => E (mv o3 y q) (d2 ph o1 (vS k)) * s1 o2 (mv o3 y q) k)). intros k Hk.
  eapply is_derive_eq'.
  - apply (is_derive_mult (K:=R_AbsRing) (fun y => E (mv o3 y q) (d2 ph o1 (vS k))) (fun y => s1 o2 (mv o3 y q) k)).
    + apply d2_branch; auto. apply O1.
    + apply state_derive2; auto.
    + intros; apply Rmult_comm.
  - rewrite mv_id. reflexivity.
Qed.

Definition Q2 (o o' : var) (q : pnt) : R :=
  E q (d2 ph o o') + sum NS (fun k => E q (d2 ph o (vS k)) * s1 o' q k + E q (d2 ph o' (vS k)) * s1 o q k
    + sum NS (fun l => E q (d2 ph (vS k) (vS l)) * s1 o q k * s1 o' q l)).
Lemma pair0 o q (X : nat -> R) : Dq q ->
  sum NS (fun k => E q (d2 ph o (vS k)) * X k) + sum NS (fun k => sum NS (fun l => E q (d2 ph (vS k) (vS l)) * X k * s1 o q l)) = 0.
Proof.
  intros Hq. rewrite <- OrdLimits.sum_add. apply sum_zer. intros k Hk.
  rewrite (sumx NS _ (fun l => X k * (E q (d2 ph (vS k) (vS l)) * s1 o q l))) by (intros; ring). rewrite OrdLimits.sum_mul, E1 by auto. ring.
Qed.
Lemma Q2_Q2s o o' q : Dq q -> Q2 o o' q = Q2s o o' q.
Proof.
  intros Hq. unfold Q2, Q2s. f_equal. rewrite split2, OrdLimits.sum_add. rewrite Rplus_assoc. rewrite (pair0 o' q (s1 o q) Hq). ring.
Qed.
Definition Q3 (o1 o2 o3 : var) (q : pnt) : R :=
  E q (d3 ph o1 o2 o3) + sum NS (fun l => E q (d3 ph o1 o2 (vS l)) * s1 o3 q l + E q (d3 ph o2 o3 (vS l)) * s1 o1 q l + E q (d3 ph o3 o1 (vS l)) * s1 o2 q l
    + sum NS (fun m => E q (d3 ph o1 (vS l) (vS m)) * s1 o2 q l * s1 o3 q m + E q (d3 ph o2 (vS l) (vS m)) * s1 o3 q l * s1 o1 q m
        + E q (d3 ph o3 (vS l) (vS m)) * s1 o1 q l * s1 o2 q m
        + sum NS (fun n => E q (d3 ph (vS l) (vS m) (vS n)) * s1 o1 q l * s1 o2 q m * s1 o3 q n))).
Lemma turn o (X : nat -> R) o1 o2 q : Dq q -> sum NS (fun k => E q (d2 ph o (vS k)) * s2 o1 o2 q k) = sum NS (fun k => s1 o q k * rhs2 o1 o2 q k).
Proof.
  intros Hq. pose proof (pair0 o q (s2 o1 o2 q) Hq) as P.
  assert (Es : sum NS (fun k => sum NS (fun l => E q (d2 ph (vS k) (vS l)) * s2 o1 o2 q k * s1 o q l)) = - sum NS (fun k => s1 o q k * rhs2 o1 o2 q k)); [|lra].
  rewrite sum_swp. rewrite <- sum_neg. apply sumx. intros k Hk.
  rewrite (sumx NS _ (fun l => s1 o q k * (E q (d2 ph (vS k) (vS l)) * s2 o1 o2 q l))).
  - rewrite OrdLimits.sum_mul, E2 by auto. ring.
  - intros l Hl. rewrite (sym2 q (vS l) (vS k)) by (auto; exact Hl || exact Hk). ring.
Qed.
Lemma Q3_F3s o1 o2 o3 q : valid o1 -> valid o2 -> valid o3 -> Dq q -> Q3 o1 o2 o3 q = F3s o1 o2 o3 q.
Proof.
  intros V1 V2 V3 Hq. unfold Q3, F3s. rewrite Rplus_assoc. f_equal. rewrite split3.
  rewrite !OrdLimits.sum_add. rewrite (turn o1 (fun _ => 0) o2 o3 q Hq).
  rewrite (sumx NS (fun k => s1 o1 q k * rhs2 o2 o3 q k) (fun k => s1 o1 q k * E q (d3 ph o2 o3 (vS k)) + sum NS (fun m =>
     s1 o1 q k * (E q (d3 ph o2 (vS k) (vS m)) * s1 o3 q m + E q (d3 ph o3 (vS k) (vS m)) * s1 o2 q m)
     + sum NS (fun n => E q (d3 ph (vS k) (vS m) (vS n)) * s1 o1 q k * s1 o2 q m * s1 o3 q n)))).
  2:{ intros k Hk. unfold rhs2. rewrite Rmult_plus_distr_l. f_equal. rewrite <- OrdLimits.sum_mul. apply sumx. intros m Hm.
      rewrite Rmult_plus_distr_l. f_equal. rewrite <- OrdLimits.sum_mul. apply sumx. intros. ring. }
  rewrite split3.
  rewrite (sumx NS (fun k => (E q (d3 ph o1 (vS k) o3) + sum NS (fun l => E q (d3 ph o1 (vS k) (vS l)) * s1 o3 q l)) * s1 o2 q k)
     (fun k => E q (d3 ph o3 o1 (vS k)) * s1 o2 q k + sum NS (fun l => E q (d3 ph o1 (vS k) (vS l)) * s1 o2 q k * s1 o3 q l))).
  2:{ intros k Hk. rewrite (sym3b q o1 (vS k) o3), (sym3a q o1 o3 (vS k)) by (auto; exact Hk). rewrite Rmult_plus_distr_r, <- sum_mulr. f_equal. apply sumx. intros. ring. }
  rewrite split2.
  rewrite (sumx NS (fun k => s1 o1 q k * E q (d3 ph o2 o3 (vS k))) (fun k => E q (d3 ph o2 o3 (vS k)) * s1 o1 q k)) by (intros; ring).
  rewrite (symm2 NS (fun l m => E q (d3 ph o1 (vS l) (vS m)) * s1 o2 q l * s1 o3 q m + E q (d3 ph o2 (vS l) (vS m)) * s1 o3 q l * s1 o1 q m + E q (d3 ph o3 (vS l) (vS m)) * s1 o1 q l * s1 o2 q m)
    (fun k l => E q (d3 ph o1 (vS k) (vS l)) * s1 o2 q k * s1 o3 q l + s1 o1 q k * (E q (d3 ph o2 (vS k) (vS l)) * s1 o3 q l + E q (d3 ph o3 (vS k) (vS l)) * s1 o2 q l))).
  2:{ intros k l Hk Hl. rewrite (sym3b q o2 (vS l) (vS k)) by (auto; exact Hk || exact Hl). ring. }
  rewrite (sumx NS (fun k => sum NS (fun l => E q (d3 ph o1 (vS k) (vS l)) * s1 o2 q k * s1 o3 q l + s1 o1 q k * (E q (d3 ph o2 (vS k) (vS l)) * s1 o3 q l + E q (d3 ph o3 (vS k) (vS l)) * s1 o2 q l)))
    (fun k => sum NS (fun l => E q (d3 ph o1 (vS k) (vS l)) * s1 o2 q k * s1 o3 q l) + sum NS (fun l => s1 o1 q k * (E q (d3 ph o2 (vS k) (vS l)) * s1 o3 q l + E q (d3 ph o3 (vS k) (vS l)) * s1 o2 q l))))
    by (intros; apply OrdLimits.sum_add).
  rewrite OrdLimits.sum_add. ring.
Qed.
(** the form with the second derivatives of the ordering state written out: they cancel *)
Definition Full (o1 o2 o3 : var) (q : pnt) : R :=
  E q (d3 ph o1 o2 o3) + sum NS (fun k => E q (d3 ph o1 o2 (vS k)) * s1 o3 q k + E q (d3 ph o2 o3 (vS k)) * s1 o1 q k + E q (d3 ph o3 o1 (vS k)) * s1 o2 q k
    + E q (d2 ph o1 (vS k)) * s2 o2 o3 q k + E q (d2 ph o2 (vS k)) * s2 o1 o3 q k + E q (d2 ph o3 (vS k)) * s2 o1 o2 q k
    + sum NS (fun l => E q (d3 ph o1 (vS k) (vS l)) * s1 o2 q k * s1 o3 q l + E q (d3 ph o2 (vS k) (vS l)) * s1 o3 q k * s1 o1 q l
        + E q (d3 ph o3 (vS k) (vS l)) * s1 o1 q k * s1 o2 q l
        + E q (d2 ph (vS k) (vS l)) * s2 o2 o3 q k * s1 o1 q l + E q (d2 ph (vS k) (vS l)) * s2 o1 o3 q k * s1 o2 q l + E q (d2 ph (vS k) (vS l)) * s2 o1 o2 q k * s1 o3 q l
        + sum NS (fun m => E q (d3 ph (vS k) (vS l) (vS m)) * s1 o1 q k * s1 o2 q l * s1 o3 q m))).
Lemma Full_Q3 o1 o2 o3 q : Dq q -> Full o1 o2 o3 q = Q3 o1 o2 o3 q.
Proof.
  intros Hq. unfold Full, Q3. rewrite !split3. f_equal. f_equal.
  pose proof (pair0 o1 q (s2 o2 o3 q) Hq) as P1. pose proof (pair0 o2 q (s2 o1 o3 q) Hq) as P2. pose proof (pair0 o3 q (s2 o1 o2 q) Hq) as P3.
  rewrite !OrdLimits.sum_add.
  rewrite (sumx NS (fun k => sum NS (fun l => E q (d3 ph o1 (vS k) (vS l)) * s1 o2 q k * s1 o3 q l + E q (d3 ph o2 (vS k) (vS l)) * s1 o3 q k * s1 o1 q l
        + E q (d3 ph o3 (vS k) (vS l)) * s1 o1 q k * s1 o2 q l
        + E q (d2 ph (vS k) (vS l)) * s2 o2 o3 q k * s1 o1 q l + E q (d2 ph (vS k) (vS l)) * s2 o1 o3 q k * s1 o2 q l + E q (d2 ph (vS k) (vS l)) * s2 o1 o2 q k * s1 o3 q l))
    (fun k => sum NS (fun l => E q (d3 ph o1 (vS k) (vS l)) * s1 o2 q k * s1 o3 q l + E q (d3 ph o2 (vS k) (vS l)) * s1 o3 q k * s1 o1 q l
        + E q (d3 ph o3 (vS k) (vS l)) * s1 o1 q k * s1 o2 q l)
        + sum NS (fun l => E q (d2 ph (vS k) (vS l)) * s2 o2 o3 q k * s1 o1 q l) + sum NS (fun l => E q (d2 ph (vS k) (vS l)) * s2 o1 o3 q k * s1 o2 q l) + sum NS (fun l => E q (d2 ph (vS k) (vS l)) * s2 o1 o2 q k * s1 o3 q l)))
    by (intros; rewrite !OrdLimits.sum_add; ring).
  rewrite !OrdLimits.sum_add. lra.
Qed.
Lemma pd_loc o F H q d : outer o -> Dq q -> (forall q, Dq q -> F q = H q) -> pd o F q d -> pd o H q d.
Proof.
  intros Oo Hq Eq P. unfold pd in *. eapply is_derive_ext_loc; [|exact P]. generalize (D_open o q Oo Hq). apply filter_imp. intros y Dy. now apply Eq.
Qed.
Lemma pd_Q2 o1 o2 o3 q : outer o1 -> outer o2 -> outer o3 -> Dq q -> pd o3 (Q2 o1 o2) q (Q3 o1 o2 o3 q).
Proof.
  intros O1 O2 O3 Hq. apply (pd_loc o3 (Q2s o1 o2)); auto. { intros. symmetry. now apply Q2_Q2s. }
  rewrite Q3_F3s by (auto; apply O1 || apply O2 || apply O3). now apply G_ooo.
Qed.
Lemma pd_Q1 o1 o2 q : outer o1 -> outer o2 -> Dq q -> pd o2 (fun q => E q (d1 ph o1)) q (Q2 o1 o2 q).
Proof. intros O1 O2 Hq. rewrite Q2_Q2s by auto. now apply G_oo. Qed.
End Phase.
