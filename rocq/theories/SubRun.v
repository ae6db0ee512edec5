(** Running the reaction to a given oxygen potential: what it may change and what it may not. *)
From Coq Require Import Reals List Lia Lra Bool Arith.
From Verif Require Import MassModel MassSpec MassProofs HessModel SubModel SubSpec SubProofs.
Import ListNotations.
Open Scope R_scope.

Section Run.
Variable tab : Tab.
Hypothesis Lay : layout tab.
Variable dat : Data.
Variables t p : R.

(** only the solids and the bulk composition may differ *)
Definition kept (s s' : St) : Prop :=
  hasLiquid s' = hasLiquid s /\ nLiq s' = nLiq s /\ liqC s' = liqC s /\ nSol s' = nSol s /\ fracS s' = fracS s /\ fracL s' = fracL s /\
  fracMass s' = fracMass s /\ oxy s' = oxy s /\ fo2On s' = fo2On s.
Lemma kept_refl s : kept s s.
Proof. repeat split. Qed.
Lemma kept_trans s s' s'' : kept s s' -> kept s' s'' -> kept s s''.
Proof. intros (A1 & A2 & A3 & A4 & A5 & A6 & A7 & A8 & A9) (B1 & B2 & B3 & B4 & B5 & B6 & B7 & B8 & B9). repeat split; congruence. Qed.
Lemma kept_sol s i k v : kept s (setSol i k v s).
Proof. repeat split. Qed.
Lemma kept_bulk s f : kept s (setBulk f s).
Proof. repeat split. Qed.
Lemma kept_nSol s s' : kept s s' -> nSol s' = nSol s.
Proof. intros (_ & _ & _ & E & _). exact E. Qed.

(** a cell of the solids *)
Definition place (s : St) (c : nat * nat) : Prop :=
  exists ph, (ph < npc tab)%nat /\ isPhase tab ph = true /\ componentRow tab ph (fst c) /\ (snd c < nSol s ph)%nat.
Lemma place_kept s s' c : kept s s' -> place s c -> place s' c.
Proof. intros K (ph & A & B & C & D). exists ph. rewrite (kept_nSol _ _ K). auto. Qed.
Lemma cols_place s c : sensible tab s -> In c (cols tab s) -> place s c.
Proof.
  intros Sn H. destruct c as [i k]. apply cols_present in H. destruct H as (ph & Hp & Hn & C). destruct (sn_phase tab s Sn ph Hp Hn) as (I & L & _).
  exists ph. split; [exact Hp|]. split; [exact I|]. cbn [fst snd]. destruct C as [(N & -> & ->)|(N & Hk & j & Hj & -> & _)].
  - split; [now left|exact Hn].
  - split; [right; lia|exact Hk].
Qed.

Variable l : list (nat * nat).
Variable d : nat -> R.
Definition change (q : Quantity) : R := sum (length l) (fun j => d (S j) * perSol q (fst (nth j l (O, O)))).
Lemma runBy_kept xi s : kept s (runBy l d xi s).
Proof. unfold runBy. apply (loop_inv (fun _ x => kept s x)); [apply kept_refl|]. intros i x _ K. apply (kept_trans _ _ _ K), kept_sol. Qed.
Lemma totals_kept s : kept s (totals tab s).
Proof.
  unfold totals. apply (loop_inv (fun _ x => kept s x)); [apply kept_refl|]. intros i x _ K. destruct (isPhase tab i && negb (Nat.eqb (na tab i) 1)); [|exact K].
  apply (loop_inv (fun _ y => kept s y)); [exact K|]. intros k y _ Ky. apply (kept_trans _ _ _ Ky), kept_sol.
Qed.
Lemma trialBy_kept xi s : kept s (trialBy tab l d xi s).
Proof. unfold trialBy. apply (kept_trans _ _ _ (kept_trans _ _ _ (runBy_kept xi s) (totals_kept _))), kept_bulk. Qed.

Lemma runBy_amount q xi s : (forall c, In c l -> place s c) -> MassSpec.inSolids tab q (runBy l d xi s) = MassSpec.inSolids tab q s + xi * change q.
Proof.
  intros P. unfold runBy, change.
  refine (proj2 (loop_inv (fun n x => kept s x /\ MassSpec.inSolids tab q x = MassSpec.inSolids tab q s + xi * sum n (fun j => d (S j) * perSol q (fst (nth j l (O, O))))) (length l) _ s _ _)).
  - split; [apply kept_refl|]. cbn. ring.
  - intros j x Hj [K E]. split; [apply (kept_trans _ _ _ K), kept_sol|]. destruct (P (nth j l (O, O)) (nth_In _ _ Hj)) as (ph & A & B & C & D).
    rewrite (inSolids_setSol tab q Lay x ph); auto. rewrite (kept_nSol _ _ K). apply Nat.ltb_lt in D. rewrite D, E. cbn [sum]. ring.
Qed.
Lemma totals_amount q s : MassSpec.inSolids tab q (totals tab s) = MassSpec.inSolids tab q s.
Proof.
  unfold totals. apply (loop_inv (fun _ x => MassSpec.inSolids tab q x = MassSpec.inSolids tab q s)); [reflexivity|]. intros i x Hi E.
  destruct (isPhase tab i) eqn:I; [|exact E]. destruct (Nat.eqb_spec (na tab i) 1) as [N|N]; [exact E|]. cbn [negb andb].
  apply (loop_inv (fun _ y => MassSpec.inSolids tab q y = MassSpec.inSolids tab q s)); [exact E|]. intros k y _ Ey.
  rewrite (inSolids_setTotal tab q Lay); auto. destruct (na_cases tab Lay i Hi I); [contradiction|assumption].
Qed.
Lemma trialBy_amount q xi s : (forall c, In c l -> place s c) -> MassSpec.inSolids tab q (trialBy tab l d xi s) = MassSpec.inSolids tab q s + xi * change q.
Proof.
  intros P. unfold trialBy. transitivity (MassSpec.inSolids tab q (totals tab (runBy l d xi s))); [now apply inSolids_same|]. rewrite totals_amount. now apply runBy_amount.
Qed.
(** the two ways of adding up an oxide *)
Lemma inSolids_eq s o : counts tab s -> SubModel.inSolids tab s o = MassSpec.inSolids tab (oxide tab o) s.
Proof.
  intros (C & _). unfold SubModel.inSolids, MassSpec.inSolids. apply sum_ext. intros i Hi. destruct (isPhase tab i) eqn:I; [|now rewrite (C i I)].
  apply sum_ext. intros k _. unfold solidAmount. cbn [perSol oxide]. destruct (Nat.eqb (na tab i) 1); [ring|]. apply sum_ext. intros. ring.
Qed.
Lemma counts_kept s s' : kept s s' -> counts tab s -> counts tab s'.
Proof. intros K (A & B & C). unfold counts. rewrite (kept_nSol _ _ K). auto. Qed.
Lemma trialBy_bulk xi s o : counts tab s -> (o < nc tab)%nat -> bulk (trialBy tab l d xi s) o = MassSpec.inSolids tab (oxide tab o) (trialBy tab l d xi s).
Proof.
  intros C Ho. rewrite <- inSolids_eq by (apply (counts_kept _ _ (trialBy_kept xi s) C)). unfold trialBy, newBulk. cbn [bulk setBulk].
  apply Nat.ltb_lt in Ho. rewrite Ho. reflexivity.
Qed.

(** ** A step *)
Definition moved (s s' : St) (x : R) : Prop :=
  kept s s' /\ forall q, MassSpec.inSolids tab q s' = MassSpec.inSolids tab q s + x * change q.
Definition settled (s : St) : Prop :=
  (forall o, (o < nc tab)%nat -> bulk s o = MassSpec.inSolids tab (oxide tab o) s /\ 0 <= bulk s o) /\ phasesOk tab dat s = true.
Lemma moved_trans s s' s'' x y : moved s s' x -> moved s' s'' y -> moved s s'' (x + y).
Proof. intros [K E] [K' E']. split; [now apply (kept_trans _ s')|]. intros q. rewrite E', E. ring. Qed.
Lemma allb_in n f i : allb n f = true -> (i < n)%nat -> f i = true.
Proof. induction n as [|n IH]; intros H Hi; [lia|]. cbn in H. apply andb_true_iff in H. destruct H as [A B]. destruct (Nat.eq_dec i n) as [->|]; [exact B|apply IH; [exact A|lia]]. Qed.
Lemma halve_moves xi o2 s b o2' s' : Halve tab dat l d xi o2 s b o2' s' -> counts tab s -> (forall c, In c l -> place s c) ->
  exists x, moved s s' x /\ (b = true -> settled s').
Proof.
  intros H. induction H as [xi o2 s T|xi o2 s T X|xi o2 s b o2' s' T X H IH]; intros C P.
  - exists xi. split; [split; [apply trialBy_kept|intros q; now apply trialBy_amount]|]. intros _. unfold trialOk in T. apply andb_true_iff in T. destruct T as [T T3].
    apply andb_true_iff in T. destruct T as [_ T2]. split; [|exact T2]. intros o Ho. split; [now apply trialBy_bulk|].
    pose proof (allb_in _ _ o T3 Ho) as Q. cbv beta in Q. destruct (Rlt_dec (bulk (trialBy tab l d xi s) o) 0); [discriminate|lra].
  - exists 0. split; [|discriminate]. split; [apply (kept_trans _ _ _ (trialBy_kept xi s)), runBy_kept|]. intros q.
    rewrite runBy_amount by (intros c Hc; apply (place_kept s); [apply trialBy_kept|now apply P]). rewrite trialBy_amount by exact P. ring.
  - set (s1 := runBy l d (- xi) (trialBy tab l d xi s)) in *. assert (K : kept s s1) by (apply (kept_trans _ _ _ (trialBy_kept xi s)), runBy_kept).
    destruct IH as (x & M & Q); [now apply (counts_kept s)|intros c Hc; apply (place_kept s); [exact K|now apply P]|]. exists (0 + x). split; [|exact Q].
    apply (moved_trans _ s1); [|exact M]. split; [exact K|]. intros q. unfold s1.
    rewrite runBy_amount by (intros c Hc; apply (place_kept s); [apply trialBy_kept|now apply P]). rewrite trialBy_amount by exact P. ring.
Qed.
Lemma steps_move target o2 s b s' : Steps tab dat t p l d target o2 s b s' -> counts tab s -> (forall c, In c l -> place s c) ->
  exists x, moved s s' x /\ (b = true -> (s' = s \/ settled s') /\ Rabs (muReact tab dat t p l d s' - target) < SqrtEps).
Proof.
  intros H. induction H as [o2 s T|o2 s xi o2' s' T H|o2 s xi o2' s' b s'' T H H' IH]; intros C P.
  - exists 0. split; [split; [apply kept_refl|intros; ring]|]. intros _. split; [now left|exact T].
  - destruct (halve_moves _ _ _ _ _ _ H C P) as (x & M & _). exists x. split; [exact M|discriminate].
  - destruct (halve_moves _ _ _ _ _ _ H C P) as (x & M & Q). destruct IH as (y & M' & Q'); [apply (counts_kept s); [apply M|exact C]|intros c Hc; apply (place_kept s); [apply M|now apply P]|].
    exists (x + y). split; [now apply (moved_trans _ s')|]. intros B. destruct (Q' B) as [[E|E] R]; split; auto. right. rewrite E. now apply Q.
Qed.
End Run.
