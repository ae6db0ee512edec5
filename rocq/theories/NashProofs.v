(** Proofs about min1d and vmmin. *)
From Coq Require Import Reals ZArith Arith Bool Lia Lra.
From Verif Require Import LaSpec LaBase HhModel CholModel CholProofs NashModel.
Local Open Scope R_scope.

Lemma runs_inv {S T} (step : S -> S + T) (P : S -> Prop) (Q : T -> Prop) s t :
  runs step s t -> P s -> (forall s s', P s -> step s = inl s' -> P s') -> (forall s t, P s -> step s = inr t -> Q t) -> Q t.
Proof. intros R Ps H1 H2. induction R; eauto. Qed.
Lemma runs_terminates {S T} (step : S -> S + T) (P : S -> Prop) (mu : S -> nat) :
  (forall s s', P s -> step s = inl s' -> P s' /\ (mu s' < mu s)%nat) -> forall s, P s -> exists t, runs step s t.
Proof.
  intros H s. remember (mu s) as k eqn:K. revert s K. induction k as [k IH] using lt_wf_ind. intros s K Ps.
  destruct (step s) as [s'|t] eqn:E.
  - destruct (H _ _ Ps E) as [Ps' L]. destruct (IH (mu s') ltac:(lia) s' eq_refl Ps') as [t Rt]. exists t. now apply (runs_next _ _ s').
  - exists t. now apply runs_done.
Qed.
Lemma runs_det {S T} (step : S -> S + T) s t t' : runs step s t -> runs step s t' -> t = t'.
Proof. intros R. revert t'. induction R; intros t' R'; inversion R'; subst; try congruence. apply IHR. rewrite H in H0. now injection H0 as <-. Qed.

(** ** min1d *)
(** the start, or a strictly better point *)
Definition better (f : R -> option R) (b y : R) (x : R) : Prop := x = b \/ ev f x < y.
Definition inv1 (f : R -> option R) (b y : R) (ifnMax : nat) (ps : pc1 * st1) : Prop :=
  let s := snd ps in
  better f b y (x1 s) /\ better f b y (bb s) /\ (1 <= ifn s <= Nat.max 1 ifnMax)%nat /\
  match fst ps with
  | Top => s0 s = ev f (x1 s) /\ ev f (x1 s) <= y
  | _ => s1 s = ev f (x1 s) /\ s1 s <= ev f (bb s) /\ ev f (bb s) <= y
  end.
Definition mu1 (ifnMax : nat) (ps : pc1 * st1) : nat :=
  (2 * (Nat.max 1 ifnMax + 1 - ifn (snd ps)) + match fst ps with Interp => 1 | _ => 0 end)%nat.
Definition post1 (f : R -> option R) (b y reltest : R) (ifnMax : nat) (r : out1) : Prop :=
  better f b y (obb r) /\ ev f (obb r) <= y /\
  match code1 r with
  | SUCCESS => exists x v, fnminval r = Some v /\ v = ev f x /\ v <= ev f (obb r) /\ better f b y x /\ Rabs (obb r - x) <= reltest /\ lastPoint r = obb r /\
                 (oifn r <= Nat.max 1 ifnMax)%nat
  | BAD_INITIAL => False
  | ITERS_EXCEEDED => fnminval r = None /\ (oifn r <= Nat.max 1 ifnMax + 1)%nat
  end.
Lemma better_trans f b y x x' : better f b y x -> ev f b <= y -> ev f x' < ev f x -> better f b y x'.
Proof. intros [->|H] E L; right; lra. Qed.
Lemma min1d_step f b y reltest ifnMax ps : ev f b = y -> inv1 f b y ifnMax ps ->
  match min1dStep f reltest ifnMax ps with
  | inl ps' => inv1 f b y ifnMax ps' /\ (mu1 ifnMax ps' < mu1 ifnMax ps)%nat
  | inr r => post1 f b y reltest ifnMax r
  end.
Proof.
  intros Ey. destruct ps as [pc s]. unfold inv1, mu1, post1. cbn [fst snd]. intros (B1 & B2 & N & V).
  assert (Yb : ev f b <= y) by lra.
  destruct pc; cbn [min1dStep]; cbv zeta.
  - destruct V as [V1 V2].
    destruct (Nat.ltb_spec ifnMax (S (ifn s))); cbn [exceeded code1 obb fnminval oifn bb ifn].
    + split; auto. split; [lra|]. split; auto. lia.
    + destruct (Rlt_dec (ev f (x1 s + st s)) (s0 s)) as [L|L]; cbn [fst snd bb st x0 x1 x2 s0 s1 s2 ifn].
      * split; [|lia]. split; [apply (better_trans _ _ _ (x1 s)); auto; lra|]. split; auto. split; [lia|]. split; auto. lra.
      * split; [|lia]. split; auto. split; auto. split; [lia|]. split; auto. lra.
  - destruct V as (V1 & V2 & V3).
    destruct (Nat.ltb_spec ifnMax (S (ifn s))); cbn [exceeded code1 obb fnminval oifn bb ifn].
    + split; auto. split; [lra|]. split; auto. lia.
    + destruct (Rlt_dec (ev f (x1 s + st s * (3/2))) (s1 s)) as [L|L]; cbn [fst snd bb st x0 x1 x2 s0 s1 s2 ifn].
      * split; [|lia]. split; [apply (better_trans _ _ _ (x1 s)); auto; lra|]. split; auto. split; [lia|]. split; auto. lra.
      * split; [|lia]. split; auto. split; auto. split; [lia|]. split; auto.
  - destruct V as (V1 & V2 & V3).
    destruct (Nat.ltb_spec ifnMax (S (ifn s))); cbn [exceeded code1 obb fnminval oifn bb ifn].
    + split; auto. split; [lra|]. split; auto. lia.
    + destruct (Rlt_dec (ev f (x1 s + st s)) (s1 s)) as [L|L]; cbn [fst snd bb st x0 x1 x2 s0 s1 s2 ifn].
      * split; [|lia]. split; [apply (better_trans _ _ _ (x1 s)); auto; lra|]. split; auto. split; [lia|]. split; auto. lra.
      * split; [|lia]. split; auto. split; auto. split; [lia|]. split; auto.
  - destruct V as (V1 & V2 & V3).
    match goal with |- context [let finish := ?ff in _] => set (finish := ff) | _ => idtac end.
    assert (Fin : forall s' : st1, bb s' = bb s -> better f b y (x1 s') -> s1 s' = ev f (x1 s') -> s1 s' <= ev f (bb s) -> (ifn s <= ifn s' <= Nat.max 1 ifnMax)%nat ->
      match (if Rlt_dec reltest (Rabs (bb s' - x1 s'))
        then inl (Top, {| bb := bb s'; st := st s'; x0 := x0 s'; x1 := x1 s'; x2 := x2 s'; s0 := s1 s'; s1 := s1 s'; s2 := s2 s'; ifn := ifn s'; at1 := at1 s' |})
        else inr {| code1 := SUCCESS; obb := bb s'; ost := st s'; oifn := ifn s'; fnminval := Some (s1 s'); lastPoint := bb s' |}) with
      | inl ps' => inv1 f b y ifnMax ps' /\ (mu1 ifnMax ps' < mu1 ifnMax (Interp, s))%nat
      | inr r => post1 f b y reltest ifnMax r
      end).
    { intros s' E1 E2 E3 E4 E5. destruct (Rlt_dec reltest (Rabs (bb s' - x1 s'))) as [L|L].
      - unfold inv1, mu1. cbn [fst snd bb st x0 x1 x2 s0 s1 s2 ifn]. rewrite E1. split; [|lia]. split; auto. split; auto. split; [lia|]. split; auto. lra.
      - unfold post1. cbn [code1 obb ost oifn fnminval lastPoint]. rewrite E1 in *. split; auto. split; auto. exists (x1 s'), (s1 s').
        split; auto. split; auto. split; auto. split; auto. split; [lra|]. split; auto. lia. }
    destruct (Req_EM_T _ _); [apply Fin; auto; lia|].
    destruct (Rlt_dec reltest _).
    + destruct (Nat.ltb_spec ifnMax (S (ifn s))).
      * unfold post1. cbn [exceeded code1 obb fnminval oifn bb ifn]. split; auto. split; [lra|]. split; auto. lia.
      * match goal with |- context [Rlt_dec ?u (s1 s)] => destruct (Rlt_dec u (s1 s)) end.
        -- apply Fin; cbn [bb x1 s1 ifn]; auto; [apply (better_trans _ _ _ (x1 s)); auto; lra|lra|lia].
        -- apply Fin; cbn [bb x1 s1 ifn]; auto; lia.
    + apply Fin; cbn [bb x1 s1 ifn]; auto; lia.
Qed.
Lemma min1d_ok f b0 st0 reltest ifnMax r : min1d f b0 st0 reltest ifnMax r ->
  match f b0 with
  | None => code1 r = BAD_INITIAL /\ obb r = b0
  | Some y => post1 f b0 y reltest ifnMax r
  end.
Proof.
  unfold min1d. destruct (f b0) as [y|] eqn:E; [|intros ->; auto]. intros R.
  assert (Ey : ev f b0 = y) by (unfold ev; now rewrite E).
  refine (runs_inv _ (inv1 f b0 y ifnMax) _ _ _ R _ _ _).
  - unfold inv1. cbn [fst snd bb st x0 x1 x2 s0 s1 s2 ifn]. split; [now left|]. split; [now left|]. split; [lia|]. split; [auto|lra].
  - intros s s' I H. pose proof (min1d_step f b0 y reltest ifnMax s Ey I) as P. rewrite H in P. apply P.
  - intros s t I H. pose proof (min1d_step f b0 y reltest ifnMax s Ey I) as P. rewrite H in P. apply P.
Qed.
Lemma min1d_returns f b0 st0 reltest ifnMax : exists r, min1d f b0 st0 reltest ifnMax r.
Proof.
  unfold min1d. destruct (f b0) as [y|] eqn:E; [|eauto].
  assert (Ey : ev f b0 = y) by (unfold ev; now rewrite E).
  apply (runs_terminates _ (inv1 f b0 y ifnMax) (mu1 ifnMax)).
  - intros s s' I H. pose proof (min1d_step f b0 y reltest ifnMax s Ey I) as P. rewrite H in P. exact P.
  - unfold inv1. cbn [fst snd bb st x0 x1 x2 s0 s1 s2 ifn]. split; [now left|]. split; [now left|]. split; [lia|]. split; [auto|lra].
Qed.
