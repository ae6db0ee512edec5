(** Expressions along a path in the space of variables: the change of an
    expression is the sum of the changes of its variables, weighted with
    slopes that tend to its partial derivatives. *)
From Coq Require Import Reals QArith Qreals ZArith NArith List Lia Lra Bool.
From Coquelicot Require Import Coquelicot.
From Verif Require Import LaSpec OrdLimits Sym.
Import List ListNotations.
Local Open Scope R_scope.

(** the variables an expression may mention *)
Section Vars.
Variable ss : list site.
Variable vs : nat -> N.                    (* the variables, n of them *)
Variable n : nat.
Fixpoint isVar (m : nat) (v : N) : bool := match m with O => false | S k => N.eqb (vs k) v || isVar k v end.
Fixpoint varsIn (x : expr) : bool :=
  match x with
  | Num _ => true
  | Var v => isVar n v
  | Site k | Log k => true
  | Sym.Add a b | Sub a b | Mul a b | Div a b => varsIn a && varsIn b
  | Neg a => varsIn a
  end.
Definition sitesIn : bool := forallb (fun s => varsIn (raw s)) ss.
Fixpoint distinct (m : nat) : bool := match m with O => true | S k => negb (isVar k (vs k)) && distinct k end.

Lemma isVar_ex m v : isVar m v = true -> exists k, (k < m)%nat /\ vs k = v.
Proof.
  induction m; cbn; [discriminate|]. intros H. apply orb_prop in H. destruct H as [H|H].
  - apply N.eqb_eq in H. exists m. auto.
  - destruct (IHm H) as (k & L & E). exists k. split; auto.
Qed.
Lemma isVar_in m k : (k < m)%nat -> isVar m (vs k) = true.
Proof. induction m; intros H; [lia|]. cbn. apply orb_true_intro. destruct (Nat.eq_dec k m) as [->|]; [left; apply N.eqb_refl|right; apply IHm; lia]. Qed.
Lemma distinct_inj m : distinct m = true -> forall i j, (i < m)%nat -> (j < m)%nat -> vs i = vs j -> i = j.
Proof.
  induction m; intros D i j Hi Hj E; [lia|]. cbn in D. apply andb_prop in D. destruct D as [D1 D2]. apply negb_true_iff in D1.
  destruct (Nat.eq_dec i m) as [->|Ni], (Nat.eq_dec j m) as [->|Nj]; auto.
  - rewrite E, isVar_in in D1; [discriminate|lia].
  - rewrite <- E, isVar_in in D1; [discriminate|lia].
  - apply IHm; auto; lia.
Qed.

Variable pos : list N.
Hypothesis SO : sitesOk ss = true.
Hypothesis SI : sitesIn = true.
Hypothesis DI : distinct n = true.

Variable g : R -> env.
Variable y0 : R.
Notation e := (g y0).
Hypothesis Ins : inside ss pos e.
Hypothesis Cont : forall k, (k < n)%nat -> filterlim (fun y => g y (vs k)) (locally y0) (locally (e (vs k))).

Notation lim f l := (filterlim f (locally y0) (locally (l : R))).
(** f changes with slopes tending to d k *)
Definition slopes (f : R -> R) (d : nat -> R) : Prop :=
  exists q : nat -> R -> R,
    locally y0 (fun y => f y - f y0 = sum n (fun k => q k y * (g y (vs k) - e (vs k)))) /\
    (forall k, (k < n)%nat -> lim (q k) (d k)).

Lemma slopes_lim f d : slopes f d -> lim f (f y0).
Proof.
  intros (q & E & L).
  assert (H : lim (fun y => f y0 + sum n (fun k => q k y * (g y (vs k) - e (vs k)))) (f y0 + sum n (fun k => d k * (e (vs k) - e (vs k))))).
  { apply lim_plus; [typeclasses eauto|apply filterlim_const|].
    apply (lim_sum (locally y0) n (fun k y => q k y * (g y (vs k) - e (vs k)))). intros k Hk. apply lim_mult; [typeclasses eauto|auto|].
    apply lim_minus; [typeclasses eauto|auto|apply filterlim_const]. }
  rewrite (sum_zer n (fun k => d k * (e (vs k) - e (vs k)))) in H by (intros; ring). rewrite Rplus_0_r in H.
  revert H. apply lim_ext; [typeclasses eauto|]. revert E. apply filter_imp. intros y E. lra.
Qed.
Lemma slopes_ext f h d d' : (forall y, f y = h y) -> (forall k, (k < n)%nat -> d k = d' k) -> slopes f d -> slopes h d'.
Proof.
  intros E1 E2 (q & E & L). exists q. split.
  - revert E. apply filter_imp. intros y E. rewrite <- !E1. exact E.
  - intros k Hk. rewrite <- E2; auto.
Qed.
Lemma slopes_loc f h d : locally y0 (fun y => f y = h y) -> slopes f d -> slopes h d.
Proof.
  intros E1 (q & E & L). exists q. split; auto. pose proof (locally_singleton _ _ E1) as E0. cbv beta in E0.
  generalize (filter_and _ _ E1 E). apply filter_imp. intros y [A B]. rewrite <- A, <- E0. exact B.
Qed.
Lemma slopes_const c : slopes (fun _ => c) (fun _ => 0).
Proof.
  exists (fun _ _ => 0). split; [|intros; apply filterlim_const]. apply filter_forall. intros y.
  rewrite sum_zer; [ring|intros; ring].
Qed.
Lemma slopes_var k : (k < n)%nat -> slopes (fun y => g y (vs k)) (fun j => delta k j).
Proof.
  intros Hk. exists (fun j _ => delta k j). split; [|intros; apply filterlim_const]. apply filter_forall. intros y.
  now rewrite (sum_dl n k (fun j => g y (vs j) - e (vs j))).
Qed.
Lemma slopes_plus f h a b : slopes f a -> slopes h b -> slopes (fun y => f y + h y) (fun k => a k + b k).
Proof.
  intros (q & E & L) (q' & E' & L'). exists (fun k y => q k y + q' k y). split.
  - generalize (filter_and _ _ E E'). apply filter_imp. intros y [A B].
    rewrite (sumx n _ (fun k => q k y * (g y (vs k) - e (vs k)) + q' k y * (g y (vs k) - e (vs k)))) by (intros; ring).
    rewrite sum_add, <- A, <- B. ring.
  - intros k Hk. apply lim_plus; auto. typeclasses eauto.
Qed.
Lemma slopes_opp f a : slopes f a -> slopes (fun y => - f y) (fun k => - a k).
Proof.
  intros (q & E & L). exists (fun k y => - q k y). split.
  - revert E. apply filter_imp. intros y A.
    rewrite (sumx n _ (fun k => - (q k y * (g y (vs k) - e (vs k))))) by (intros; ring). rewrite sum_neg, <- A. ring.
  - intros k Hk. apply lim_opp; auto.
Qed.
Lemma slopes_mult f h a b : slopes f a -> slopes h b -> slopes (fun y => f y * h y) (fun k => a k * h y0 + f y0 * b k).
Proof.
  intros F H. pose proof (slopes_lim _ _ H) as LH. destruct F as (q & E & L), H as (q' & E' & L').
  exists (fun k y => q k y * h y + f y0 * q' k y). split.
  - generalize (filter_and _ _ E E'). apply filter_imp. intros y [A B].
    rewrite (sumx n _ (fun k => q k y * (g y (vs k) - e (vs k)) * h y + f y0 * (q' k y * (g y (vs k) - e (vs k))))) by (intros; ring).
    rewrite sum_add, sum_mulr, sum_mul, <- A, <- B. ring.
  - intros k Hk. apply lim_plus; [typeclasses eauto|apply lim_mult; auto; typeclasses eauto|apply lim_mult; auto; [typeclasses eauto|apply filterlim_const]].
Qed.
(** a function of one real variable *)
Lemma slopes_comp (phi : R -> R) f a dphi : is_derive phi (f y0) dphi -> slopes f a -> slopes (fun y => phi (f y)) (fun k => dphi * a k).
Proof.
  intros D F. pose proof (slopes_lim _ _ F) as LF. destruct F as (q & E & L).
  set (Phi := fun u => if Req_EM_T u (f y0) then dphi else slope phi (f y0) u).
  assert (LP : filterlim Phi (locally (f y0)) (locally dphi)).
  { apply (lim_eps (locally (f y0))). intros eps He. apply derive_slope in D.
    destruct (proj1 (lim_eps (pl (f y0)) _ _) D eps He) as [del Hd]. exists del. intros u Hu. unfold Phi.
    destruct (Req_EM_T u (f y0)) as [Eu|Nu]; [rewrite Rminus_eq_0, Rabs_R0; lra|]. apply Hd; auto. }
  exists (fun k y => Phi (f y) * q k y). split.
  - revert E. apply filter_imp. intros y A.
    rewrite (sumx n _ (fun k => Phi (f y) * (q k y * (g y (vs k) - e (vs k))))) by (intros; ring). rewrite sum_mul, <- A. unfold Phi.
    destruct (Req_EM_T (f y) (f y0)) as [Eu|Nu]; [rewrite Eu; ring|]. symmetry. apply slope_mult. exact Nu.
  - intros k Hk. apply lim_mult; [typeclasses eauto| |auto]. apply (filterlim_comp _ _ _ f Phi _ (locally (f y0)) _ LF LP).
Qed.
Lemma slopes_inv f a : f y0 <> 0 -> slopes f a -> slopes (fun y => / f y) (fun k => - / (f y0 * f y0) * a k).
Proof.
  intros NZ F. apply slopes_comp; auto.
  eapply is_derive_eq'; [apply (is_derive_inv (fun u : R => u) (f y0) 1); [apply (is_derive_id (K:=R_AbsRing))|exact NZ]|]. match goal with |- ?a = ?b => change (@eq R a b) end. field. exact NZ.
Qed.

Notation dir k := (along (vs k)).
Lemma along_val s k j : (k < n)%nat -> (j < n)%nat -> val s e (dir j (vs k)) = delta k j.
Proof.
  intros Hk Hj. unfold along, delta. destruct (N.eqb_spec (vs k) (vs j)) as [E|E]; cbn.
  - rewrite (distinct_inj n DI k j Hk Hj E), Nat.eqb_refl. apply Q2R_1.
  - destruct (Nat.eqb_spec k j); [subst; congruence|]. apply Q2R_0.
Qed.
Lemma raw_slopes x : rawOk x = true -> varsIn x = true -> slopes (fun y => rawVal (g y) x) (fun k => val1 ss e (rdiff (dir k) x)).
Proof.
  induction x; intros RO VI; try discriminate RO.
  - apply (slopes_ext (fun _ => Q2R q) _ (fun _ => 0)); [reflexivity|intros; cbn; now rewrite Q2R_0|apply slopes_const].
  - cbn in VI. destruct (isVar_ex _ _ VI) as (k & Hk & <-).
    apply (slopes_ext (fun y => g y (vs k)) _ (fun j => delta k j)); [reflexivity| |now apply slopes_var].
    intros j Hj. cbn [rdiff]. unfold val1. now rewrite along_val.
  - cbn in RO, VI. apply andb_prop in RO, VI. destruct RO, VI. apply (slopes_plus (fun y => rawVal (g y) x1) (fun y => rawVal (g y) x2)); auto.
  - cbn in RO, VI. apply andb_prop in RO, VI. destruct RO, VI.
    apply (slopes_ext (fun y => rawVal (g y) x1 + - rawVal (g y) x2) _ (fun k => val1 ss e (rdiff (dir k) x1) + - val1 ss e (rdiff (dir k) x2))); [reflexivity|reflexivity|].
    apply slopes_plus; auto. apply slopes_opp; auto.
  - cbn in RO, VI. apply andb_prop in RO, VI. destruct RO as [R1 R2], VI.
    eapply slopes_ext; [intros y; reflexivity| |apply (slopes_mult (fun y => rawVal (g y) x1) (fun y => rawVal (g y) x2)); [apply IHx1; auto|apply IHx2; auto]].
    intros k Hk. cbv beta. unfold val1 at 3. cbn [rdiff val].
    rewrite (rawOk_val x1 (fun k => rawVal e (raw (nth_site ss k))) (fun _ => 0) e R1), (rawOk_val x2 (fun k => rawVal e (raw (nth_site ss k))) (fun _ => 0) e R2). reflexivity.
  - cbn in RO. destruct x2; try discriminate RO. apply andb_prop in RO. destruct RO as [Ra Rq]. cbn in VI. apply andb_prop in VI. destruct VI as [VI _].
    assert (NZ : Q2R q <> 0) by (apply Qnz; now destruct (Z.eqb (Qnum q) 0)).
    apply (slopes_ext (fun y => rawVal (g y) x1 * / Q2R q) _ (fun k => val1 ss e (rdiff (dir k) x1) * / Q2R q + rawVal e x1 * 0)).
    + intros y. reflexivity.
    + intros k Hk. cbn [rdiff]. unfold val1 at 2. cbn [val]. fold (val1 ss e (rdiff (dir k) x1)). unfold Rdiv. ring.
    + apply (slopes_mult (fun y => rawVal (g y) x1) (fun _ => / Q2R q)); auto. apply slopes_const.
  - cbn in RO, VI. apply (slopes_opp (fun y => rawVal (g y) x)); auto.
Qed.
Lemma site_vars k : isSite ss k = true -> varsIn (raw (nth_site ss k)) = true.
Proof. intros H. unfold sitesIn in SI. rewrite forallb_forall in SI. apply SI. now apply isSite_in. Qed.
Lemma val1_slopes x : domOk ss pos x = true -> varsIn x = true -> slopes (fun y => val1 ss (g y) x) (fun k => val1 ss e (diff ss (dir k) x)).
Proof.
  induction x; intros D VI.
  - apply (slopes_ext (fun _ => Q2R q) _ (fun _ => 0)); [reflexivity|intros; cbn; now rewrite Q2R_0|apply slopes_const].
  - cbn in VI. destruct (isVar_ex _ _ VI) as (k & Hk & <-).
    apply (slopes_ext (fun y => g y (vs k)) _ (fun j => delta k j)); [reflexivity| |now apply slopes_var].
    intros j Hj. cbn [diff]. unfold val1. now rewrite along_val.
  - cbn in D. cbn [diff]. apply (raw_slopes (raw (nth_site ss k))); [now apply (site_rawOk ss)|now apply site_vars].
  - cbn in D, VI. apply andb_prop in D, VI. destruct D, VI. apply (slopes_plus (fun y => val1 ss (g y) x1) (fun y => val1 ss (g y) x2)); auto.
  - cbn in D, VI. apply andb_prop in D, VI. destruct D, VI.
    apply (slopes_ext (fun y => val1 ss (g y) x1 + - val1 ss (g y) x2) _ (fun k => val1 ss e (diff ss (dir k) x1) + - val1 ss e (diff ss (dir k) x2))); [reflexivity|reflexivity|].
    apply slopes_plus; auto. apply slopes_opp; auto.
  - cbn in D, VI. apply andb_prop in D, VI. destruct D, VI.
    eapply slopes_ext; [intros y; reflexivity| |apply (slopes_mult (fun y => val1 ss (g y) x1) (fun y => val1 ss (g y) x2)); [apply IHx1; auto|apply IHx2; auto]].
    intros k Hk. reflexivity.
  - cbn in D, VI. apply andb_prop in D, VI. destruct D as [D Hd], VI as [V1 V2]. apply andb_prop in D. destruct D as [D1 D2].
    pose proof (denOk_nz ss pos e Ins x2 Hd) as NZ.
    eapply slopes_ext; [| |apply (slopes_mult (fun y => val1 ss (g y) x1) (fun y => / val1 ss (g y) x2)); [apply IHx1; auto|apply slopes_inv; [exact NZ|apply IHx2; auto]]].
    + intros y. reflexivity.
    + intros k Hk. cbn [diff]. destruct (isNum x2) eqn:EN.
      * destruct x2; try discriminate EN. cbn [diff]. unfold val1. cbn [val]. rewrite Q2R_0. field. exact NZ.
      * unfold val1 in *. cbn [val]. field. exact NZ.
  - cbn in D, VI. apply (slopes_opp (fun y => val1 ss (g y) x)); auto.
  - cbn in D. cbn [diff]. pose proof (raw_pos ss pos e Ins k D) as P.
    eapply slopes_ext; [| |apply (slopes_comp ln (fun y => rawVal (g y) (raw (nth_site ss k))) (fun j => val1 ss e (rdiff (dir j) (raw (nth_site ss k)))) (/ rawVal e (raw (nth_site ss k))));
      [apply is_derive_Reals, derivable_pt_lim_ln, P|apply raw_slopes; [now apply (site_rawOk ss)|now apply site_vars]]].
    + intros y. reflexivity.
    + intros j Hj. unfold val1 at 2. cbn [val]. fold (val1 ss e (rdiff (dir j) (raw (nth_site ss k)))). unfold Rdiv. ring.
Qed.

(** the same for the value with the clamps: inside, they are not active *)
Lemma raw_cont s : In s ss -> filterlim (fun y => rawVal (g y) (raw s)) (locally y0) (locally (rawVal e (raw s))).
Proof.
  intros I. apply (slopes_lim (fun y => rawVal (g y) (raw s)) (fun k => val1 ss e (rdiff (dir k) (raw s)))). apply raw_slopes.
  - unfold sitesOk in SO. rewrite forallb_forall in SO. auto.
  - unfold sitesIn in SI. rewrite forallb_forall in SI. auto.
Qed.
Lemma clear_open c x : clear_of c x -> locally x (fun z => clear_of c z).
Proof.
  intros H. unfold clear_of in *. destruct c.
  - apply (open_gt 0). exact H.
  - apply (open_gt eps). exact H.
  - apply (open_and _ _ (open_gt eps) (open_lt (1 - eps))). exact H.
  - apply (open_gt 0). exact H.
  - apply (open_and _ _ (open_gt 0) (open_lt 1)). exact H.
  - apply (open_and _ _ (open_gt eps) (open_lt (1 / 3 - eps))). exact H.
Qed.
Lemma sites_near : locally y0 (fun y => forall s, In s ss -> clear_of (guard s) (rawVal (g y) (raw s))).
Proof.
  assert (G : forall l, (forall s, In s l -> In s ss) ->
    locally y0 (fun y => forall s, In s l -> clear_of (guard s) (rawVal (g y) (raw s)))).
  { induction l as [|s l IH]; intros Hl; [apply filter_forall; intros y s []|].
    assert (L1 : locally y0 (fun y => clear_of (guard s) (rawVal (g y) (raw s)))).
    { apply (raw_cont s); [apply Hl; now left|]. apply clear_open. apply (proj1 Ins). apply Hl. now left. }
    specialize (IH ltac:(intros; apply Hl; now right)).
    generalize (filter_and _ _ L1 IH). apply filter_imp. intros y [A B] s' [<-|I]; auto. }
  apply G. auto.
Qed.
Theorem denote_slopes x : domOk ss pos x = true -> varsIn x = true ->
  slopes (fun y => denote ss (g y) x) (fun k => val1 ss e (diff ss (dir k) x)).
Proof.
  intros D VI. apply (slopes_loc (fun y => val1 ss (g y) x)); [|now apply val1_slopes].
  generalize sites_near. apply filter_imp. intros y A. unfold denote, val1. symmetry. apply (val_sites ss pos); auto.
  intros k Hk. unfold siteVal. apply clampVal_clear. apply A. now apply isSite_in.
Qed.

(** if the partial derivatives are known: the change along the path *)
Theorem path_slopes x (d : nat -> expr) : domOk ss pos x = true -> varsIn x = true ->
  (forall k, (k < n)%nat -> derives ss pos (vs k) x (d k)) ->
  slopes (fun y => denote ss (g y) x) (fun k => denote ss e (d k)).
Proof.
  intros D VI Dv. eapply slopes_ext; [reflexivity| |apply denote_slopes; auto]. intros k Hk. cbv beta.
  pose proof (Dv k Hk e Ins) as H1.
  pose proof (diff_ok ss pos e Ins (fun y => set e (vs k) y) (e (vs k)) (set_id e (vs k)) (along (vs k)) (along_ok ss e (vs k)) x SO D) as H2.
  rewrite <- (is_derive_unique _ _ _ H1). symmetry. apply is_derive_unique. exact H2.
Qed.

(** along a differentiable path the derivative is given by the chain rule *)
Theorem path_derive x (d : nat -> expr) (dv : nat -> R) : domOk ss pos x = true -> varsIn x = true ->
  (forall k, (k < n)%nat -> derives ss pos (vs k) x (d k)) ->
  (forall k, (k < n)%nat -> is_derive (fun y => g y (vs k)) y0 (dv k)) ->
  is_derive (fun y => denote ss (g y) x) y0 (sum n (fun k => denote ss e (d k) * dv k)).
Proof.
  intros D VI Dv Dg. destruct (path_slopes x d D VI Dv) as (q & E & L). apply derive_slope.
  assert (H : filterlim (fun y => sum n (fun k => q k y * slope (fun y => g y (vs k)) y0 y)) (pl y0) (locally (sum n (fun k => denote ss e (d k) * dv k)))).
  { apply (lim_sum (pl y0) n (fun k y => q k y * slope (fun y => g y (vs k)) y0 y) (fun k => denote ss e (d k) * dv k)).
    intros k Hk. apply lim_mult; [typeclasses eauto|now apply lim_punctured, L|]. apply derive_slope. auto. }
  revert H. apply lim_ext; [typeclasses eauto|].
  generalize (filter_and _ _ (locally_punctured _ _ E) (punctured_ne y0)). apply filter_imp. intros y [A Ne].
  unfold slope at 2. rewrite A. apply (Rmult_eq_reg_r (y - y0)); [|lra]. rewrite <- sum_mulr.
  unfold Rdiv at 1. rewrite Rmult_assoc, Rinv_l, Rmult_1_r by lra. apply sumx. intros k Hk.
  rewrite <- (slope_mult (fun y => g y (vs k)) y0 y Ne). ring.
Qed.
End Vars.
