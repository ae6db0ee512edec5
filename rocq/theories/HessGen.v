(** Blocks one after the other, and the function they belong to. *)
From Coq Require Import Reals List Lia Lra Bool Arith.
From Coquelicot Require Import Coquelicot.
From Verif Require Import MassModel MassProofs HessModel HessFill RealTac.
Import List ListNotations.
Open Scope R_scope.

Section Gen.
Variable Id : Type.
Variable eq_dec : forall a b : Id, {a = b} + {a <> b}.
Variable nonLinear : bool.
Variable idx : option nat.

Definition sumL (f : Id -> R) (l : list Id) : R := fold_right (fun d x => f d + x) 0 l.
Lemma sumL_ext f g l : (forall d, In d l -> f d = g d) -> sumL f l = sumL g l.
Proof. induction l as [|d l IH]; intros H; [reflexivity|]. change (f d + sumL f l = g d + sumL g l). rewrite (H d) by now left. rewrite IH; auto. intros; apply H; now right. Qed.
Lemma sumL_app f l l' : sumL f (l ++ l') = sumL f l + sumL f l'.
Proof. induction l as [|d l IH]; [change (sumL f l' = 0 + sumL f l'); lra|]. change (f d + sumL f (l ++ l') = f d + sumL f l + sumL f l'). rewrite IH. lra. Qed.
Lemma sumL_cons f d l : sumL f (d :: l) = f d + sumL f l.
Proof. reflexivity. Qed.
Lemma sumL_0 f l : (forall d, In d l -> f d = 0) -> sumL f l = 0.
Proof. induction l as [|d l IH]; intros H; [reflexivity|]. rewrite sumL_cons, (H d) by now left. rewrite IH; [ring|]. intros; apply H; now right. Qed.
(** all but one are zero *)
Lemma sumL_one f l d : NoDup l -> In d l -> (forall d', In d' l -> d' <> d -> f d' = 0) -> sumL f l = f d.
Proof.
  intros ND. induction ND as [|a l Na ND IH]; intros I Z; [destruct I|]. rewrite sumL_cons. destruct I as [->|I].
  - rewrite sumL_0; [ring|]. intros d' I. apply Z; [now right|]. intros ->. contradiction.
  - rewrite IH; auto; [rewrite (Z a); [ring|now left|]; intros ->; contradiction|]. intros. apply Z; auto. now right.
Qed.

(** ** Where things are *)
Section Place.
Variable Bk : Id -> Block.
Variable act : Id -> list nat.
Fixpoint totE (ids : list Id) (base r c : nat) : R :=
  match ids with [] => 0 | d :: l => wholeE idx (Bk d) (act d) base r c + totE l (base + length (act d)) r c end.
Fixpoint totB (ids : list Id) (base r : nat) : R :=
  match ids with [] => 0 | d :: l => wholeB nonLinear idx (Bk d) (act d) base r + totB l (base + length (act d)) r end.
Definition places (ids : list Id) : list (Id * nat) := flat_map (fun d => map (pair d) (act d)) ids.
Lemma nth_map {A B} (f : A -> B) l n : nth_error (map f l) n = option_map f (nth_error l n).
Proof. revert n. induction l; destruct n; cbn; auto. Qed.
Definition isI (r : nat) : bool := isIdx idx r.

Lemma out_of base l r : (base <= r)%nat -> at_ base l r = nth_error l (r - base).
Proof. intros H. unfold at_. apply Nat.leb_le in H. now rewrite H. Qed.
Lemma totE_before ids : forall base r c, (r < base)%nat -> (c < base)%nat -> isI r = false -> totE ids base r c = 0.
Proof.
  induction ids as [|d l IH]; intros base r c Hr Hc Ir; cbn [totE]; auto. rewrite IH by (auto; lia). unfold wholeE. rewrite !at_below by auto. unfold isI in Ir. rewrite Ir. cbn. ring.
Qed.
Lemma places_in ids d j n : nth_error (places ids) n = Some (d, j) -> In d ids.
Proof. intros H. apply nth_error_In in H. apply in_flat_map in H. destruct H as (d' & I & J). apply in_map_iff in J. destruct J as (x & E & _). congruence. Qed.

Definition pairE (a b : Id * nat) : R := if eq_dec (fst a) (fst b) then bD2p (Bk (fst a)) (snd a) (snd b) else 0.
(** zero when one of the two is before the block *)
Lemma totE_left ids : forall base r c, (r < base)%nat -> (base <= c)%nat -> isI r = false -> isI c = false -> totE ids base r c = 0.
Proof.
  induction ids as [|d l IH]; intros base r c Hr Hc Ir Ic; cbn [totE]; auto. unfold wholeE. rewrite (at_below base (act d) r) by auto. unfold isI in *.
  rewrite Ir, Ic. cbn [andb].
  destruct (Nat.lt_ge_cases c (base + length (act d))).
  - rewrite totE_before by (auto; lia). destruct (at_ base (act d) c); ring.
  - rewrite IH by (auto; lia). destruct (at_ base (act d) c); ring.
Qed.
Lemma totE_right ids : forall base r c, (c < base)%nat -> (base <= r)%nat -> isI r = false -> isI c = false -> totE ids base r c = 0.
Proof.
  induction ids as [|d l IH]; intros base r c Hr Hc Ir Ic; cbn [totE]; auto. unfold wholeE. rewrite (at_below base (act d) c) by auto. unfold isI in *.
  rewrite Ir, Ic. cbn [andb].
  destruct (Nat.lt_ge_cases r (base + length (act d))).
  - rewrite totE_before by (auto; lia). destruct (at_ base (act d) r); ring.
  - rewrite IH by (auto; lia). destruct (at_ base (act d) r); ring.
Qed.
Lemma totE_place ids : NoDup ids -> forall base r c a b, (base <= r)%nat -> (base <= c)%nat -> isI r = false -> isI c = false ->
  nth_error (places ids) (r - base) = Some a -> nth_error (places ids) (c - base) = Some b -> totE ids base r c = pairE a b.
Proof.
  intros ND. induction ND as [|d l Nd ND IH]; intros base r c a b Hr Hc Ir Ic Ea Eb.
  - cbn in Ea. destruct (r - base)%nat; discriminate Ea.
  - cbn [places flat_map totE] in *. unfold wholeE. rewrite !out_of by auto. unfold isI in *. rewrite Ir, Ic. cbn [andb].
    set (k := length (act d)) in *.
    assert (LM : length (map (pair d) (act d)) = k) by apply map_length.
    destruct (Nat.lt_ge_cases (r - base) k) as [Lr|Lr]; destruct (Nat.lt_ge_cases (c - base) k) as [Lc|Lc].
    + rewrite nth_error_app1, nth_map in Ea by lia. rewrite nth_error_app1, nth_map in Eb by lia.
      destruct (nth_error (act d) (r - base)) as [j|]; [|discriminate]. destruct (nth_error (act d) (c - base)) as [j'|]; [|discriminate].
      cbn in Ea, Eb. injection Ea as <-. injection Eb as <-. unfold pairE. cbn [fst snd]. destruct (eq_dec d d); [|congruence].
      rewrite totE_before by (auto; lia). ring.
    + rewrite nth_error_app1, nth_map in Ea by lia. rewrite nth_error_app2, LM in Eb by lia.
      destruct (nth_error (act d) (r - base)) as [j|]; [|discriminate]. cbn in Ea. injection Ea as <-.
      rewrite (proj2 (nth_error_None (act d) (c - base))) by lia. rewrite totE_left by (auto; lia). unfold pairE. cbn [fst].
      destruct b as [d' k']. cbn [fst]. destruct (eq_dec d d') as [->|]; [|ring]. apply places_in in Eb. contradiction.
    + rewrite nth_error_app2, LM in Ea by lia. rewrite nth_error_app1, nth_map in Eb by lia.
      destruct (nth_error (act d) (c - base)) as [j|]; [|discriminate]. cbn in Eb. injection Eb as <-.
      rewrite (proj2 (nth_error_None (act d) (r - base))) by lia. rewrite totE_right by (auto; lia). unfold pairE. cbn [fst].
      destruct a as [d' k']. cbn [fst]. destruct (eq_dec d' d) as [->|]; [|ring]. apply places_in in Ea. contradiction.
    + rewrite nth_error_app2, LM in Ea by lia. rewrite nth_error_app2, LM in Eb by lia.
      rewrite !(proj2 (nth_error_None (act d) _)) by lia. rewrite (IH (base + k)%nat r c a b); auto; try lia; [ring| |].
      * now replace (r - (base + k))%nat with (r - base - k)%nat by lia.
      * now replace (c - (base + k))%nat with (c - base - k)%nat by lia.
Qed.
(** the row and column of the temperature or pressure *)
Lemma totE_idx ids : forall i, idx = Some i -> forall base r a, (base + length (places ids) <= i)%nat -> (base <= r)%nat ->
  nth_error (places ids) (r - base) = Some a -> NoDup ids ->
  totE ids base r i = bX (Bk (fst a)) (snd a) /\ totE ids base i r = bX (Bk (fst a)) (snd a).
Proof.
  intros i Ei. assert (II : isI i = true) by (unfold isI, isIdx; rewrite Ei; apply Nat.eqb_refl).
  assert (Z : forall ids' base r, (r < base)%nat -> (base + length (places ids') <= i)%nat -> totE ids' base r i = 0 /\ totE ids' base i r = 0).
  { induction ids' as [|d l IH]; intros base r Hr Hi; cbn [totE]; [auto|]. cbn [places flat_map] in Hi. rewrite app_length, map_length in Hi. destruct (IH (base + length (act d))%nat r) as [-> ->]; [lia|unfold places; lia|].
    unfold wholeE. rewrite (at_below base (act d) r) by auto. rewrite (at_out base (act d) i) by lia. unfold isI in II. rewrite II.
    assert (Ir : isIdx idx r = false) by (unfold isIdx; rewrite Ei; apply Nat.eqb_neq; lia). rewrite Ir. cbn. split; ring. }
  induction ids as [|d l IH]; intros base r a Hi Hr Ea ND.
  - cbn in Ea. destruct (r - base)%nat; discriminate Ea.
  - cbn [places flat_map totE] in *. rewrite app_length in Hi. assert (LM : length (map (pair d) (act d)) = length (act d)) by apply map_length.
    inversion ND as [|? ? Nd ND']; subst. unfold wholeE. rewrite (at_out base (act d) i) by (unfold places in Hi; lia). rewrite !out_of by auto. unfold isI in II. rewrite II.
    destruct (Nat.lt_ge_cases (r - base) (length (act d))) as [Lr|Lr].
    + rewrite nth_error_app1, nth_map in Ea by lia. destruct (nth_error (act d) (r - base)) as [j|]; [|discriminate]. cbn in Ea. injection Ea as <-. cbn [fst snd].
      destruct (Z l (base + length (act d))%nat r) as [-> ->]; [lia|unfold places; lia|]. split; ring.
    + rewrite nth_error_app2, LM in Ea by lia. rewrite (proj2 (nth_error_None (act d) (r - base))) by lia.
      assert (Ir : isIdx idx r = false).
      { unfold isIdx. rewrite Ei. apply Nat.eqb_neq. assert (r - base - length (act d) < length (places l))%nat by (apply nth_error_Some; unfold places; congruence). unfold places in *. lia. }
      rewrite Ir. cbn [andb]. destruct (IH (base + length (act d))%nat r a) as [-> ->]; auto; try lia; [unfold places; lia| |split; ring].
      now replace (r - (base + length (act d)))%nat with (r - base - length (act d))%nat by lia.
Qed.
Lemma totE_ii ids : forall i, idx = Some i -> forall base, (base + length (places ids) <= i)%nat -> totE ids base i i = sumL (fun d => bTT (Bk d)) ids.
Proof.
  intros i Ei. assert (II : isIdx idx i = true) by (unfold isIdx; rewrite Ei; apply Nat.eqb_refl).
  induction ids as [|d l IH]; intros base Hi; cbn [totE sumL fold_right]; auto. cbn [places flat_map] in Hi. rewrite app_length, map_length in Hi. fold (sumL (fun d => bTT (Bk d)) l). rewrite IH by (unfold places; lia).
  unfold wholeE. rewrite (at_out base (act d) i) by lia. rewrite II. reflexivity.
Qed.
Lemma totB_i ids : forall i, idx = Some i -> forall base, (base + length (places ids) <= i)%nat -> totB ids base i = - sumL (fun d => bT (Bk d)) ids.
Proof.
  intros i Ei. assert (II : isIdx idx i = true) by (unfold isIdx; rewrite Ei; apply Nat.eqb_refl).
  induction ids as [|d l IH]; intros base Hi; cbn [totB sumL fold_right]; [ring|]. cbn [places flat_map] in Hi. rewrite app_length, map_length in Hi. fold (sumL (fun d => bT (Bk d)) l). rewrite IH by (unfold places; lia).
  unfold wholeB. rewrite (at_out base (act d) i) by lia. rewrite II. ring.
Qed.
Lemma totB_place ids : forall base r a, (base <= r)%nat -> isI r = false -> nth_error (places ids) (r - base) = Some a ->
  totB ids base r = - bDp (Bk (fst a)) (snd a) + rowB nonLinear (Bk (fst a)) (bN (Bk (fst a))) (snd a).
Proof.
  assert (Z : forall ids' base r, (r < base)%nat -> isI r = false -> totB ids' base r = 0).
  { induction ids' as [|d l IH]; intros base r Hr Ir; cbn [totB]; auto. rewrite IH by (auto; lia). unfold wholeB. rewrite at_below by auto. unfold isI in Ir. rewrite Ir. ring. }
  induction ids as [|d l IH]; intros base r a Hr Ir Ea.
  - cbn in Ea. destruct (r - base)%nat; discriminate Ea.
  - cbn [places flat_map totB] in *. assert (LM : length (map (pair d) (act d)) = length (act d)) by apply map_length. unfold wholeB. rewrite out_of by auto.
    destruct (Nat.lt_ge_cases (r - base) (length (act d))) as [Lr|Lr].
    + rewrite nth_error_app1, nth_map in Ea by lia. destruct (nth_error (act d) (r - base)) as [j|]; [|discriminate]. cbn in Ea. injection Ea as <-. cbn [fst snd]. rewrite Z by (auto; lia). ring.
    + rewrite nth_error_app2, LM in Ea by lia. rewrite (proj2 (nth_error_None (act d) (r - base))) by lia. unfold isI in Ir. rewrite Ir. rewrite (IH (base + length (act d))%nat r a); auto; try lia; [ring|].
      now replace (r - (base + length (act d)))%nat with (r - base - length (act d))%nat by lia.
Qed.
End Place.

(** ** The function *)
Section Fun.
Variable Bk : Id -> Block.
Variable act : Id -> list nat.
Variable ids : list Id.
Hypothesis ND : NoDup ids.
Variable phi : Id -> (nat -> R) -> R -> R.
Variable A : Id -> nat -> R.
Variable t0 : R.
Definition updA (B : Id -> nat -> R) (d : Id) (j : nat) (x : R) (d' : Id) : nat -> R := if eq_dec d d' then upd (B d') j x else B d'.
Definition Pot (B : Id -> nat -> R) (t : R) : R := sumL (fun d => phi d (B d) t) ids.

(** a block whose numbers are the derivatives of its function *)
Record exactBlock (d : Id) : Prop := mkExact {
  ex1 : forall j, In j (act d) -> is_derive (fun y => phi d (upd (A d) j y) t0) (A d j) (bDp (Bk d) j);
  ex2 : forall j k, In j (act d) -> In k (act d) -> is_derive (fun x => Derive (fun y => phi d (upd (upd (A d) k x) j y) t0) (upd (A d) k x j)) (A d k) (bD2p (Bk d) j k) }.
Record exactT (d : Id) : Prop := mkExactT {
  ex3 : is_derive (fun t => phi d (A d) t) t0 (bT (Bk d));
  ex4l : forall j, In j (act d) -> locally (A d j) (fun x => ex_derive (fun t => phi d (upd (A d) j x) t) t0);
  ex4 : forall j, In j (act d) -> is_derive (fun x => Derive (fun t => phi d (upd (A d) j x) t) t0) (A d j) (bX (Bk d) j);
  ex5l : locally t0 (fun t => ex_derive (fun t => phi d (A d) t) t);
  ex5 : is_derive (fun t => Derive (fun t => phi d (A d) t) t) t0 (bTT (Bk d)) }.

Lemma Derive_shift (f : R -> R) c x : Derive (fun y => c + f y) x = Derive f x.
Proof. unfold Derive. f_equal. apply Lim_ext. intros h. f_equal. match goal with |- ?a = ?b => change (@eq R a b) end. ring. Qed.
Lemma sumL_der (f : Id -> R -> R) (g : Id -> R) l x : (forall d, In d l -> is_derive (f d) x (g d)) -> is_derive (fun y => sumL (fun d => f d y) l) x (sumL g l).
Proof.
  induction l as [|d l IH]; intros H.
  - apply (is_derive_const (V := R_NormedModule) 0).
  - rewrite sumL_cons. apply (is_derive_plus (f d) (fun y => sumL (fun d => f d y) l)); [apply H; now left|]. apply IH. intros; apply H; now right.
Qed.
Lemma sumL_Derive (f : Id -> R -> R) l x : (forall d, In d l -> ex_derive (f d) x) -> Derive (fun y => sumL (fun d => f d y) l) x = sumL (fun d => Derive (f d) x) l.
Proof. intros H. apply is_derive_unique. apply sumL_der. intros d I. apply Derive_correct. auto. Qed.
(** a sum of which one term varies *)
Lemma split_one (f : Id -> R) d : In d ids -> exists c, forall g : Id -> R, (forall d', d' <> d -> g d' = f d') -> sumL g ids = c + g d.
Proof.
  intros I. revert I ND. induction ids as [|a l IH]; intros I N; [destruct I|]. inversion N as [|? ? Na Nl]; subst. destruct I as [->|I].
  - exists (sumL f l). intros g H. rewrite sumL_cons. rewrite (sumL_ext g f l); [ring|]. intros d' I. apply H. intros ->. contradiction.
  - destruct (IH I Nl) as [c Hc]. exists (f a + c). intros g H. rewrite sumL_cons, (Hc g H). rewrite (H a); [ring|]. intros ->. contradiction.
Qed.
Lemma updA_same B d j x : updA B d j x d = upd (B d) j x.
Proof. unfold updA. destruct (eq_dec d d); congruence. Qed.
Lemma updA_other B d j x d' : d' <> d -> updA B d j x d' = B d'.
Proof. unfold updA. destruct (eq_dec d d'); congruence. Qed.

Theorem Pot_d1 d j : In d ids -> In j (act d) -> exactBlock d -> is_derive (fun y => Pot (updA A d j y) t0) (A d j) (bDp (Bk d) j).
Proof.
  intros I J E. destruct (split_one (fun d => phi d (A d) t0) d I) as [c Hc].
  apply (is_derive_ext (fun y => c + phi d (upd (A d) j y) t0)).
  - intros y. symmetry. unfold Pot. rewrite (Hc (fun d0 => phi d0 (updA A d j y d0) t0)); [now rewrite updA_same|]. intros d' N. cbv beta. now rewrite updA_other.
  - replace (bDp (Bk d) j) with (0 + bDp (Bk d) j) by ring. apply (is_derive_plus (fun _ => c)); [apply (is_derive_const (V := R_NormedModule))|]. now apply (ex1 d).
Qed.
Lemma Pot_Derive B d j t : In d ids -> forall y0, Derive (fun y => Pot (updA B d j y) t) y0 = Derive (fun y => phi d (upd (B d) j y) t) y0.
Proof.
  intros I y0. destruct (split_one (fun d => phi d (B d) t) d I) as [c Hc].
  rewrite (Derive_ext _ (fun y => c + phi d (upd (B d) j y) t)); [apply Derive_shift|]. intros y. unfold Pot.
  rewrite (Hc (fun d0 => phi d0 (updA B d j y d0) t)); [now rewrite updA_same|]. intros d' N. cbv beta. now rewrite updA_other.
Qed.
Theorem Pot_d2 d j d' k : In d ids -> In d' ids -> In j (act d) -> In k (act d') -> exactBlock d ->
  is_derive (fun x => Derive (fun y => Pot (updA (updA A d' k x) d j y) t0) (updA A d' k x d j)) (A d' k) (pairE Bk (d, j) (d', k)).
Proof.
  intros I I' J K E. apply (is_derive_ext (fun x => Derive (fun y => phi d (upd (updA A d' k x d) j y) t0) (updA A d' k x d j))); [intros x; symmetry; now apply Pot_Derive|].
  unfold pairE. cbn [fst snd]. destruct (eq_dec d d') as [<-|N].
  - apply (is_derive_ext (fun x => Derive (fun y => phi d (upd (upd (A d) k x) j y) t0) (upd (A d) k x j))); [intros x; now rewrite updA_same|]. now apply (ex2 d).
  - apply (is_derive_ext (fun x => Derive (fun y => phi d (upd (A d) j y) t0) (A d j))); [intros x; now rewrite updA_other|]. apply (is_derive_const (V := R_NormedModule)).
Qed.
Theorem Pot_t1 : (forall d, In d ids -> exactT d) -> is_derive (fun t => Pot A t) t0 (sumL (fun d => bT (Bk d)) ids).
Proof. intros E. unfold Pot. apply (sumL_der (fun d t => phi d (A d) t)). intros d I. apply (ex3 d). auto. Qed.
Theorem Pot_t2 : (forall d, In d ids -> exactT d) -> is_derive (fun t => Derive (fun t => Pot A t) t) t0 (sumL (fun d => bTT (Bk d)) ids).
Proof.
  intros E. apply (is_derive_ext_loc (fun t => sumL (fun d => Derive (fun t => phi d (A d) t) t) ids)).
  - assert (L : locally t0 (fun t => forall d, In d ids -> ex_derive (fun t => phi d (A d) t) t)).
    { clear ND. induction ids as [|d l IH]; [apply filter_forall; intros t d []|].
      assert (L1 := ex5l d (E d (or_introl eq_refl))). specialize (IH (fun d I => E d (or_intror I))). generalize (filter_and _ _ L1 IH). apply filter_imp. intros t [H1 H2] d' [<-|I]; auto. }
    revert L. apply filter_imp. intros t H. symmetry. unfold Pot. apply (sumL_Derive (fun d t => phi d (A d) t)). auto.
  - apply (sumL_der (fun d t => Derive (fun t => phi d (A d) t) t)). intros d I. apply (ex5 d). auto.
Qed.
Theorem Pot_tx d j : (forall d, In d ids -> exactT d) -> In d ids -> In j (act d) ->
  is_derive (fun x => Derive (fun t => Pot (updA A d j x) t) t0) (A d j) (bX (Bk d) j).
Proof.
  intros E I J. destruct (split_one (fun d' => Derive (fun t => phi d' (A d') t) t0) d I) as [c Hc].
  apply (is_derive_ext_loc (fun x => c + Derive (fun t => phi d (upd (A d) j x) t) t0)).
  - generalize (ex4l d (E d I) j J). apply filter_imp. intros x Hx. symmetry. unfold Pot. rewrite (sumL_Derive (fun d0 t => phi d0 (updA A d j x d0) t)).
    + rewrite (Hc (fun d0 => Derive (fun t => phi d0 (updA A d j x d0) t) t0)).
      * f_equal. apply Derive_ext. intros t. now rewrite updA_same.
      * intros d' N. apply Derive_ext. intros t. now rewrite updA_other.
    + intros d' I'. destruct (eq_dec d' d) as [->|N].
      * apply (ex_derive_ext (fun t => phi d (upd (A d) j x) t)); [intros t; now rewrite updA_same|]. exact Hx.
      * apply (ex_derive_ext (fun t => phi d' (A d') t)); [intros t; now rewrite updA_other|]. exists (bT (Bk d')). apply (ex3 d'). auto.
  - replace (bX (Bk d) j) with (0 + bX (Bk d) j) by ring. apply (is_derive_plus (fun _ => c)); [apply (is_derive_const (V := R_NormedModule))|]. exact (ex4 d (E d I) j J).
Qed.
End Fun.
End Gen.
