(** C225, C226: the window in which solids to be assimilated are entered. *)
From Coq Require Import Reals Arith Bool Lia Lra.
From Verif Require Import MassModel MassSpec MassProofs AsmModel AsmProps DlgModel.
From Coq Require Import List. Import ListNotations.
Local Open Scope R_scope.

(** ---- specification ---- *)
Section Spec.
Variable tab : Tab.
(** grams of phase ph the object has been told to assimilate in a step *)
Definition gramsHeld (a : Asm) (ph : nat) : R :=
  if Nat.eqb (na tab ph) 1 then assC (asg a) ph 0%nat * smw tab ph
  else sum (na tab ph) (fun j => assC (asg a) (ph+1+j)%nat 0%nat * smw tab (ph+1+j)%nat).
(** grams in a mole of the solution whose composition is in the fields *)
Definition meanWeight (f : nat -> R) (ph : nat) : R :=
  sum (na tab ph) (fun j => f (ph+1+j)%nat * smw tab (ph+1+j)%nat) / sum (na tab ph) (fun j => f (ph+1+j)%nat).
(** what a user can do: numbers that are not negative, phases of the list *)
Definition can (e : Event) : Prop :=
  match e with Enter _ v => 0 <= v | AddSolid ph => (ph < npc tab)%nat /\ isPhase tab ph = true | Clear => True end.
(** all additions of phase ph had the same mean molar weight M *)
Definition alike (M : R) (ph : nat) (evs : list Event) : Prop := forall pre post, evs = pre ++ AddSolid ph :: post ->
  let w := session tab pre in sum (na tab ph) (fun j => fieldOf w (ph+1+j)%nat) <> 0 -> fieldOf w ph <> 0 -> meanWeight (fieldOf w) ph = M.
(** rows of phases and their end members weigh something *)
Definition heavy : Prop := forall ph, (ph < npc tab)%nat -> isPhase tab ph = true ->
  (na tab ph = 1%nat -> 0 < smw tab ph) /\ ((1 < na tab ph)%nat -> forall j, (j < na tab ph)%nat -> 0 < smw tab (ph+1+j)%nat).
End Spec.

Lemma sum_pos n f : (forall j, (j < n)%nat -> 0 <= f j) -> 0 <= sum n f.
Proof. induction n; intros P; cbn [sum]; [lra|]. specialize (IHn ltac:(intros; apply P; lia)). specialize (P n ltac:(lia)). lra. Qed.
Lemma sum_pos_0 n f : (forall j, (j < n)%nat -> 0 <= f j) -> sum n f = 0 -> forall j, (j < n)%nat -> f j = 0.
Proof.
  induction n; intros P E j Hj; [lia|]. cbn [sum] in E.
  assert (0 <= sum n f) by (apply sum_pos; intros; apply P; lia). pose proof (P n ltac:(lia)).
  destruct (Nat.eq_dec j n) as [->|]; [lra|]. apply IHn; [intros; apply P; lia|lra|lia].
Qed.
Lemma loop_upd n b (g : nat -> R -> R) (f : nat -> R) k :
  loop n (fun j f => upd f (b+1+j) (g j (f (b+1+j)%nat))) f k = if Nat.leb (b+1) k && Nat.ltb k (b+1+n) then g (k - (b+1))%nat (f k) else f k.
Proof.
  revert k; induction n as [|n IH]; intros k; cbn [loop].
  - destruct (Nat.leb_spec (b+1) k); cbn [andb]; [|reflexivity]. destruct (Nat.ltb_spec k (b+1+0)); [lia|reflexivity].
  - unfold upd at 1. destruct (Nat.eqb_spec k (b+1+n)) as [->|D].
    + rewrite IH. destruct (Nat.leb_spec (b+1) (b+1+n)); [|lia]. destruct (Nat.ltb_spec (b+1+n) (b+1+n)); [lia|]. cbn [andb].
      destruct (Nat.ltb_spec (b+1+n) (b+1+S n)); [|lia]. now replace (b+1+n-(b+1))%nat with n by lia.
    + rewrite IH. destruct (Nat.leb_spec (b+1) k); cbn [andb]; [|reflexivity].
      destruct (Nat.ltb_spec k (b+1+n)), (Nat.ltb_spec k (b+1+S n)); try lia; reflexivity.
Qed.
Definition member (tab : Tab) (ph k : nat) : bool := Nat.leb (ph+1) k && Nat.ltb k (ph+1+na tab ph).
Lemma member_in tab ph j : (j < na tab ph)%nat -> member tab ph (ph+1+j) = true.
Proof. intros H. unfold member. destruct (Nat.leb_spec (ph+1) (ph+1+j)); [|lia]. destruct (Nat.ltb_spec (ph+1+j) (ph+1+na tab ph)); [reflexivity|lia]. Qed.
Lemma member_out tab ph : member tab ph ph = false.
Proof. unfold member. destruct (Nat.leb_spec (ph+1) ph); [lia|reflexivity]. Qed.
Lemma member_is tab ph k : member tab ph k = true -> exists j, (j < na tab ph)%nat /\ k = (ph+1+j)%nat.
Proof. unfold member. intros H. apply andb_true_iff in H as [A B]. apply Nat.leb_le in A. apply Nat.ltb_lt in B. exists (k - (ph+1))%nat. split; lia. Qed.

Section P.
Variable tab : Tab.
Hypothesis Lay : layout tab.
Notation total ph f := (sum (na tab ph) (fun j => f (ph+1+j)%nat)).

Lemma fieldTotal_sum ph w : fieldTotal tab ph w = total ph (fieldOf w).
Proof. unfold fieldTotal. rewrite (loop_add_R (na tab ph) (fun j => fieldOf w (ph+j+1)%nat)), Rplus_0_l. apply sum_ext. intros j _. f_equal. lia. Qed.
Lemma loop_same {S} n (f g : nat -> S -> S) s : (forall j x, f j x = g j x) -> loop n f s = loop n g s.
Proof. intros E. induction n; cbn; [reflexivity|]. now rewrite IHn, E. Qed.
Lemma normalised_at ph w k : normalised tab ph w k =
  if member tab ph k then if Req_EM_T (total ph (fieldOf w)) 0 then 0 else fieldOf w k / total ph (fieldOf w) * 100 else fieldOf w k.
Proof.
  unfold normalised. cbv zeta. rewrite fieldTotal_sum. set (t := total ph (fieldOf w)).
  rewrite (loop_same (na tab ph) _ (fun j f => upd f (ph+1+j) ((fun _ x => if Req_EM_T t 0 then 0 else x / t * 100) j (f (ph+1+j)%nat))))
    by (intros j x; cbv beta; replace (ph+j+1)%nat with (ph+1+j)%nat by lia; reflexivity).
  exact (loop_upd (na tab ph) ph (fun _ x => if Req_EM_T t 0 then 0 else x / t * 100) (fieldOf w) k).
Qed.
(** the fields after a click *)
Lemma click_fields ph w : fieldOf (addClick tab ph w) = normalised tab ph w.
Proof.
  unfold addClick. cbv zeta.
  assert (A : fieldOf (if Nat.eqb (na tab ph) 1 then if Req_EM_T (normalised tab ph w (ph+0)%nat) 0 then mkWin (normalised tab ph w) (kept w) (inside w)
    else mkWin (normalised tab ph w) (upd (kept w) ph (kept w ph + normalised tab ph w ph))
      (addAssimilant tab ph (normalised tab ph w ph) (fun j => normalised tab ph w (ph+j)%nat) (inside w)) else mkWin (normalised tab ph w) (kept w) (inside w)) = normalised tab ph w).
  { destruct (Nat.eqb (na tab ph) 1); [destruct (Req_EM_T (normalised tab ph w (ph+0)%nat) 0)|]; reflexivity. }
  destruct (Nat.ltb 1 (na tab ph)); [|exact A]. destruct (Req_EM_T (normalised tab ph w (ph+0)%nat) 0); [exact A|].
  destruct (Req_EM_T (fieldTotal tab ph w) 0); [exact A|reflexivity].
Qed.
(** a click on a pure phase *)
Lemma click_pure ph w : na tab ph = 1%nat -> fieldOf w ph <> 0 ->
  addClick tab ph w = mkWin (normalised tab ph w) (upd (kept w) ph (kept w ph + fieldOf w ph)) (addAssimilant tab ph (fieldOf w ph) (fun j => normalised tab ph w (ph+j)%nat) (inside w)).
Proof.
  intros N F. unfold addClick. cbv zeta. rewrite N. cbn [Nat.eqb Nat.ltb Nat.leb]. rewrite Nat.add_0_r.
  assert (E : normalised tab ph w ph = fieldOf w ph) by (rewrite normalised_at, member_out; reflexivity). rewrite E.
  destruct (Req_EM_T (fieldOf w ph) 0); [contradiction|]. reflexivity.
Qed.
Definition mixed (m s e x : R) : R := (m * e + s * x) / (m + s).
Lemma click_solution ph w : (1 < na tab ph)%nat -> fieldOf w ph <> 0 -> total ph (fieldOf w) <> 0 ->
  let f := normalised tab ph w in
  fieldOf (addClick tab ph w) = f /\ inside (addClick tab ph w) = addAssimilant tab ph (fieldOf w ph) (fun j => f (ph+j)%nat) (inside w) /\
  forall k, kept (addClick tab ph w) k = if Nat.eqb k ph then kept w ph + fieldOf w ph
    else if member tab ph k then mixed (fieldOf w ph) (kept w ph) (f k) (kept w k) else kept w k.
Proof.
  intros N F T. cbv zeta. unfold addClick. cbv zeta. destruct (Nat.eqb_spec (na tab ph) 1); [lia|]. destruct (Nat.ltb_spec 1 (na tab ph)); [|lia]. rewrite Nat.add_0_r.
  assert (E : normalised tab ph w ph = fieldOf w ph) by (rewrite normalised_at, member_out; reflexivity). rewrite E, fieldTotal_sum.
  destruct (Req_EM_T (fieldOf w ph) 0); [contradiction|]. destruct (Req_EM_T (total ph (fieldOf w)) 0); [contradiction|]. cbn [fieldOf kept inside].
  split; [reflexivity|]. split; [reflexivity|]. intros k.
  (* the mass at ph is not touched by the loop *)
  assert (K : forall n k, loop n (fun i k => upd k (ph+1+i) ((fieldOf w ph * normalised tab ph w (ph+i+1)%nat + k ph * k (ph+1+i)%nat) / (fieldOf w ph + k ph))) (kept w) k =
    loop n (fun i f => upd f (ph+1+i) ((fun i x => mixed (fieldOf w ph) (kept w ph) (normalised tab ph w (ph+1+i)%nat) x) i (f (ph+1+i)%nat))) (kept w) k).
  { assert (Q : forall n, loop n (fun i k => upd k (ph+1+i) ((fieldOf w ph * normalised tab ph w (ph+i+1)%nat + k ph * k (ph+1+i)%nat) / (fieldOf w ph + k ph))) (kept w) ph = kept w ph).
    { intros q. induction q as [|n' IH]; [reflexivity|]. cbn [loop]. unfold upd at 1. destruct (Nat.eqb_spec ph (ph+1+n')) as [X|X]; [lia|]. exact IH. }
    intros q. induction q as [|n' IH]; intros k'; [reflexivity|]. cbn [loop]. specialize (Q n'). unfold upd.
    destruct (Nat.eqb_spec k' (ph+1+n')) as [X|X]; [|exact (IH k')]. unfold upd in Q, IH.
    rewrite Q, IH. unfold mixed. replace (ph+n'+1)%nat with (ph+1+n')%nat by lia. reflexivity. }
  unfold upd at 1. destruct (Nat.eqb_spec k ph) as [->|D].
  - f_equal. rewrite (K (na tab ph)). etransitivity; [exact (loop_upd (na tab ph) ph (fun i x => mixed (fieldOf w ph) (kept w ph) (normalised tab ph w (ph+1+i)%nat) x) (kept w) ph)|]. fold (member tab ph ph). rewrite member_out. reflexivity.
  - f_equal. rewrite (K (na tab ph)). etransitivity; [exact (loop_upd (na tab ph) ph (fun i x => mixed (fieldOf w ph) (kept w ph) (normalised tab ph w (ph+1+i)%nat) x) (kept w) k)|]. fold (member tab ph k). destruct (member tab ph k) eqn:Mb; [|reflexivity].
    destruct (member_is _ _ _ Mb) as (j & Hj & ->). now replace (ph+1+(ph+1+j-(ph+1)))%nat with (ph+1+j)%nat by lia.
Qed.
(** a click that adds nothing changes no record *)
Lemma click_idle ph w : (1 <= na tab ph)%nat -> fieldOf w ph = 0 \/ ((1 < na tab ph)%nat /\ total ph (fieldOf w) = 0) ->
  kept (addClick tab ph w) = kept w /\ inside (addClick tab ph w) = inside w.
Proof.
  intros N H. unfold addClick. cbv zeta. rewrite Nat.add_0_r, fieldTotal_sum.
  assert (E : normalised tab ph w ph = fieldOf w ph) by (rewrite normalised_at, member_out; reflexivity). rewrite E.
  destruct (Nat.eqb_spec (na tab ph) 1) as [N1|N1].
  - destruct (Nat.ltb_spec 1 (na tab ph)); [lia|]. destruct H as [H|[H _]]; [|lia]. destruct (Req_EM_T (fieldOf w ph) 0); [|contradiction]. split; reflexivity.
  - destruct (Nat.ltb_spec 1 (na tab ph)); [|lia]. destruct (Req_EM_T (fieldOf w ph) 0); [split; reflexivity|].
    destruct H as [H|[_ H]]; [contradiction|]. destruct (Req_EM_T _ 0); [|contradiction]. split; reflexivity.
Qed.

(** what the object holds after a call for a solid *)
Lemma told_other ph i m em a : (ph < npc tab)%nat -> isPhase tab ph = true -> (1 <= na tab ph)%nat -> i <> ph -> (na tab ph = 1%nat \/ member tab ph i = false) ->
  assC (asg (addAssimilant tab ph m em a)) i 0%nat = assC (asg a) i 0%nat.
Proof.
  intros Hp Pp Np D M. unfold addAssimilant. cbv zeta. destruct (Nat.eqb_spec ph (npc tab)); [lia|]. destruct (Nat.ltb_spec ph (npc tab)); [|lia]. cbn [asg].
  destruct (Nat.eq_dec (na tab ph) 1) as [N|N].
  - rewrite addSolid_pure by exact N. cbn [assC]. unfold upd2. destruct (Nat.eqb_spec i ph); [contradiction|]. reflexivity.
  - rewrite addSolid_solution by lia. destruct M as [M|M]; [contradiction|]. unfold member in M. rewrite M.
    destruct (Nat.eqb_spec i ph); [contradiction|]. cbn [assC]. ring.
Qed.
Lemma told_pure ph m em a : (ph < npc tab)%nat -> na tab ph = 1%nat ->
  assC (asg (addAssimilant tab ph m em a)) ph 0%nat = assC (asg a) ph 0%nat + m / smw tab ph.
Proof.
  intros Hp N. unfold addAssimilant. cbv zeta. destruct (Nat.eqb_spec ph (npc tab)); [lia|]. destruct (Nat.ltb_spec ph (npc tab)); [|lia]. cbn [asg].
  rewrite addSolid_pure by exact N. cbn [assC]. unfold upd2. now rewrite Nat.eqb_refl.
Qed.
Lemma told_solution ph m em a : (ph < npc tab)%nat -> (1 < na tab ph)%nat -> let mol := callMoles tab (mkCall ph m em) in
  assC (asg (addAssimilant tab ph m em a)) ph 0%nat = assC (asg a) ph 0%nat + mol /\
  forall j, (j < na tab ph)%nat -> assC (asg (addAssimilant tab ph m em a)) (ph+1+j)%nat 0%nat = assC (asg a) (ph+1+j)%nat 0%nat + em (S j) * mol / 100.
Proof.
  intros Hp N. cbv zeta. unfold addAssimilant. cbv zeta. destruct (Nat.eqb_spec ph (npc tab)); [lia|]. destruct (Nat.ltb_spec ph (npc tab)); [|lia]. cbn [asg].
  split; [|intros j Hj]; rewrite addSolid_solution by exact N; cbn [assC].
  - pose proof (member_out tab ph) as M. unfold member in M. rewrite M, Nat.eqb_refl. ring.
  - pose proof (member_in tab ph j Hj) as M. unfold member in M. rewrite M. destruct (Nat.eqb_spec (ph+1+j) ph); [lia|].
    replace (ph+1+j-ph)%nat with (S j) by lia. ring.
Qed.
Lemma told_mass ph m em a : (ph < npc tab)%nat -> stepMass (addAssimilant tab ph m em a) = stepMass a + m.
Proof. intros Hp. unfold addAssimilant. cbv zeta. destruct (Nat.eqb_spec ph (npc tab)); [lia|]. reflexivity. Qed.
(** blocks of two phases do not meet *)
Lemma apart ph i : (ph < npc tab)%nat -> isPhase tab ph = true -> (i < npc tab)%nat -> isPhase tab i = true -> i <> ph ->
  (1 < na tab ph)%nat -> member tab ph i = false.
Proof.
  intros Hp Pp Hi Pi D N. destruct (member tab ph i) eqn:E; [|reflexivity]. destruct (member_is _ _ _ E) as (j & Hj & ->).
  destruct (Lay ph Hp Pp) as [_ L]. destruct (L N) as [_ L2]. specialize (L2 (1+j)%nat ltac:(lia)). rewrite Nat.add_assoc in L2. congruence.
Qed.
Lemma apart_rows ph i j : (ph < npc tab)%nat -> isPhase tab ph = true -> (i < npc tab)%nat -> isPhase tab i = true -> i <> ph ->
  (1 < na tab ph)%nat -> (1 < na tab i)%nat -> (j < na tab i)%nat -> member tab ph (i+1+j) = false.
Proof.
  intros Hp Pp Hi Pi D N Ni Hj. destruct (member tab ph (i+1+j)) eqn:E; [|reflexivity]. destruct (member_is _ _ _ E) as (k & Hk & Q).
  destruct (Lay ph Hp Pp) as [_ L]. destruct (L N) as [_ L2]. destruct (Lay i Hi Pi) as [_ M]. destruct (M Ni) as [_ M2].
  destruct (Nat.lt_ge_cases i ph).
  - specialize (M2 (ph - i)%nat ltac:(lia)). replace (i + (ph - i))%nat with ph in M2 by lia. congruence.
  - specialize (L2 (i - ph)%nat ltac:(lia)). replace (ph + (i - ph))%nat with i in L2 by lia. congruence.
Qed.

(** the composition given to the object *)
Lemma moles_of ph w (f := normalised tab ph w) : (1 < na tab ph)%nat -> total ph (fieldOf w) <> 0 -> meanWeight tab (fieldOf w) ph <> 0 ->
  callMoles tab (mkCall ph (fieldOf w ph) (fun j => f (ph+j)%nat)) = fieldOf w ph / meanWeight tab (fieldOf w) ph.
Proof.
  intros N T W. unfold callMoles. cbn [phase grams percent].
  assert (E : weight tab ph (fun j => f (ph+j)%nat) / 100 = meanWeight tab (fieldOf w) ph).
  { unfold weight, meanWeight, Rdiv. rewrite <- !sum_scal_r. apply sum_ext. intros j Hj.
    replace (f (ph + S j)%nat) with (fieldOf w (ph+1+j)%nat / total ph (fieldOf w) * 100).
    2: { unfold f. replace (ph + S j)%nat with (ph+1+j)%nat by lia. rewrite normalised_at, member_in by exact Hj. destruct (Req_EM_T _ 0); [contradiction|]. reflexivity. }
    field. exact T. }
  rewrite E. destruct (Req_EM_T (meanWeight tab (fieldOf w) ph) 0); [contradiction|]. reflexivity.
Qed.

Hypothesis Hv : heavy tab.
Lemma mean_pos ph w : (ph < npc tab)%nat -> isPhase tab ph = true -> (1 < na tab ph)%nat -> (forall k, 0 <= fieldOf w k) -> total ph (fieldOf w) <> 0 -> 0 < meanWeight tab (fieldOf w) ph.
Proof.
  intros Hp Pp N P T. destruct (Hv ph Hp Pp) as [_ H]. specialize (H N).
  assert (T0 : 0 < total ph (fieldOf w)). { assert (0 <= total ph (fieldOf w)) by (apply sum_pos; intros; apply P). lra. }
  assert (S0 : forall j, (j < na tab ph)%nat -> 0 <= fieldOf w (ph+1+j)%nat * smw tab (ph+1+j)%nat) by (intros j Hj; apply Rmult_le_pos; [apply P|left; now apply H]).
  assert (S1 : 0 < sum (na tab ph) (fun j => fieldOf w (ph+1+j)%nat * smw tab (ph+1+j)%nat)).
  { pose proof (sum_pos _ _ S0) as G. destruct (Rle_lt_or_eq_dec _ _ G) as [|G0]; [assumption|exfalso]. apply T. apply sum_0. intros j Hj.
    pose proof (sum_pos_0 _ _ S0 (eq_sym G0) j Hj) as Z. cbv beta in Z. apply Rmult_integral in Z. destruct Z as [Z|Z]; [exact Z|]. specialize (H j Hj). lra. }
  unfold meanWeight. apply Rdiv_lt_0_compat; assumption.
Qed.

Definition sound (w : Win) : Prop :=
  (forall k, 0 <= fieldOf w k) /\
  (forall ph, (ph < npc tab)%nat -> isPhase tab ph = true -> kept w ph = gramsHeld tab (inside w) ph /\ 0 <= kept w ph) /\
  stepMass (inside w) = sum (npc tab) (fun i => if isPhase tab i then kept w i else 0).
Lemma sound_cleared : sound cleared.
Proof.
  split; [intros; cbn; lra|]. split.
  - intros ph _ _. cbn [kept cleared inside]. split; [|lra]. unfold gramsHeld, clearAll. cbn [asg assC]. destruct (Nat.eqb (na tab ph) 1); [ring|]. symmetry. apply sum_0. intros; ring.
  - cbn. symmetry. apply sum_0. intros i _. destruct (isPhase tab i); reflexivity.
Qed.
Lemma normal_pos ph w : (forall k, 0 <= fieldOf w k) -> forall k, 0 <= normalised tab ph w k.
Proof.
  intros P k. rewrite normalised_at. destruct (member tab ph k); [|apply P]. destruct (Req_EM_T (total ph (fieldOf w)) 0) as [|T]; [lra|].
  assert (0 <= total ph (fieldOf w)) by (apply sum_pos; intros; apply P). apply Rmult_le_pos; [|lra]. apply Rmult_le_pos; [apply P|]. left. apply Rinv_0_lt_compat. lra.
Qed.
Lemma held_other ph i m em a : (ph < npc tab)%nat -> isPhase tab ph = true -> (i < npc tab)%nat -> isPhase tab i = true -> i <> ph ->
  gramsHeld tab (addAssimilant tab ph m em a) i = gramsHeld tab a i.
Proof.
  intros Hp Pp Hi Pi D. destruct (Lay ph Hp Pp) as [L1 _]. destruct (Lay i Hi Pi) as [L2 L3]. unfold gramsHeld. destruct (Nat.eqb_spec (na tab i) 1) as [Ni|Ni].
  - rewrite told_other; auto. destruct (Nat.eq_dec (na tab ph) 1); [now left|]. right. apply apart; auto. lia.
  - apply sum_ext. intros j Hj. rewrite told_other; auto.
    + intros Q. destruct (L3 ltac:(lia)) as [_ L4]. specialize (L4 (1+j)%nat ltac:(lia)). rewrite Nat.add_assoc, Q in L4. congruence.
    + destruct (Nat.eq_dec (na tab ph) 1); [now left|]. right. apply apart_rows; auto; lia.
Qed.
Lemma sound_react w e : sound w -> can tab e -> sound (react tab w e).
Proof.
  intros (P & K & Sm) C. destruct e as [k v|ph|]; cbn [react can] in *.
  - split; [|split; [exact K|exact Sm]]. intros i. cbn [enterField fieldOf]. unfold upd. destruct (Nat.eqb i k); [exact C|apply P].
  - destruct C as [Hp Pp]. destruct (Lay ph Hp Pp) as [Np Ly].
    assert (Pos : forall k, 0 <= fieldOf (addClick tab ph w) k). { intros k. rewrite click_fields. now apply normal_pos. }
    split; [exact Pos|].
    assert (Idle : fieldOf w ph = 0 \/ ((1 < na tab ph)%nat /\ total ph (fieldOf w) = 0) ->
      (forall i, (i < npc tab)%nat -> isPhase tab i = true -> kept (addClick tab ph w) i = gramsHeld tab (inside (addClick tab ph w)) i /\ 0 <= kept (addClick tab ph w) i) /\
      stepMass (inside (addClick tab ph w)) = sum (npc tab) (fun i => if isPhase tab i then kept (addClick tab ph w) i else 0)).
    { intros H. destruct (click_idle ph w Np H) as [-> ->]. split; assumption. }
    destruct (Req_EM_T (fieldOf w ph) 0) as [F|F]; [apply Idle; now left|].
    assert (Go : (forall i, (i < npc tab)%nat -> isPhase tab i = true -> i <> ph -> kept (addClick tab ph w) i = kept w i) ->
      kept (addClick tab ph w) ph = kept w ph + fieldOf w ph ->
      gramsHeld tab (inside (addClick tab ph w)) ph = gramsHeld tab (inside w) ph + fieldOf w ph ->
      (exists em, inside (addClick tab ph w) = addAssimilant tab ph (fieldOf w ph) em (inside w)) ->
      (forall i, (i < npc tab)%nat -> isPhase tab i = true -> kept (addClick tab ph w) i = gramsHeld tab (inside (addClick tab ph w)) i /\ 0 <= kept (addClick tab ph w) i) /\
      stepMass (inside (addClick tab ph w)) = sum (npc tab) (fun i => if isPhase tab i then kept (addClick tab ph w) i else 0)).
    { intros Oth Own Gr (em & In). split.
      - intros i Hi Pi. destruct (K i Hi Pi) as [K1 K2]. destruct (Nat.eq_dec i ph) as [->|D].
        + split; [rewrite Own, Gr, K1; reflexivity|rewrite Own; specialize (P ph); lra].
        + rewrite (Oth i Hi Pi D). split; [|exact K2]. rewrite In, held_other by auto. exact K1.
      - rewrite In, told_mass by exact Hp. rewrite Sm.
        rewrite (sum_ext (npc tab) (fun i => if isPhase tab i then kept (addClick tab ph w) i else 0)
          (fun i => (if isPhase tab i then kept w i else 0) + (if Nat.eqb i ph then fieldOf w ph else 0))).
        2: { intros i Hi. destruct (Nat.eqb_spec i ph) as [->|D]; [rewrite Pp, Own; ring|]. destruct (isPhase tab i) eqn:Pi; [rewrite (Oth i Hi Pi D); ring|ring]. }
        rewrite sum_plus. f_equal. clear -Hp.
        enough (G : forall n, sum n (fun i => if Nat.eqb i ph then fieldOf w ph else 0) = if Nat.ltb ph n then fieldOf w ph else 0)
          by (rewrite G; destruct (Nat.ltb_spec ph (npc tab)); [reflexivity|lia]).
        induction n as [|n IH]; cbn [sum]; [reflexivity|]. rewrite IH. destruct (Nat.ltb_spec ph n), (Nat.ltb_spec ph (S n)), (Nat.eqb_spec n ph); try lia; lra. }
    destruct (Nat.eq_dec (na tab ph) 1) as [N|N].
    + pose proof (click_pure ph w N F) as E. apply Go.
      * intros i _ _ D. rewrite E. cbn [kept]. unfold upd. destruct (Nat.eqb_spec i ph); [contradiction|reflexivity].
      * rewrite E. cbn [kept]. unfold upd. now rewrite Nat.eqb_refl.
      * rewrite E. cbn [inside]. unfold gramsHeld. rewrite N. cbn [Nat.eqb]. rewrite told_pure by assumption. destruct (Hv ph Hp Pp) as [H _]. specialize (H N). field. lra.
      * rewrite E. eexists. reflexivity.
    + assert (N1 : (1 < na tab ph)%nat) by lia. destruct (Req_EM_T (total ph (fieldOf w)) 0) as [T|T]; [apply Idle; right; auto|].
      destruct (click_solution ph w N1 F T) as (E1 & E2 & E3). pose proof (mean_pos ph w Hp Pp N1 P T) as W. apply Go.
      * intros i Hi Pi D. rewrite E3. destruct (Nat.eqb_spec i ph); [contradiction|]. now rewrite apart.
      * rewrite E3, Nat.eqb_refl. reflexivity.
      * rewrite E2. unfold gramsHeld. destruct (Nat.eqb_spec (na tab ph) 1); [contradiction|].
        destruct (told_solution ph (fieldOf w ph) (fun j => normalised tab ph w (ph+j)%nat) (inside w) Hp N1) as [_ Q].
        rewrite (sum_ext (na tab ph) _ (fun j => assC (asg (inside w)) (ph+1+j)%nat 0%nat * smw tab (ph+1+j)%nat +
          fieldOf w (ph+1+j)%nat * smw tab (ph+1+j)%nat * (fieldOf w ph / (meanWeight tab (fieldOf w) ph * total ph (fieldOf w))))).
        2: { intros j Hj. rewrite (Q j Hj), moles_of by (auto; lra). replace (ph + S j)%nat with (ph+1+j)%nat by lia. rewrite normalised_at, member_in by exact Hj.
             destruct (Req_EM_T _ 0); [contradiction|]. field. split; [exact T|lra]. }
        rewrite sum_plus. f_equal. rewrite sum_scal_r.
        assert (Z : sum (na tab ph) (fun j => fieldOf w (ph+1+j)%nat * smw tab (ph+1+j)%nat) = meanWeight tab (fieldOf w) ph * total ph (fieldOf w)) by (unfold meanWeight; field; exact T).
        rewrite Z. field. split; [exact T|lra].
      * rewrite E2. eexists. reflexivity.
  - exact sound_cleared.
Qed.
Lemma session_snoc evs e : session tab (evs ++ [e]) = react tab (session tab evs) e.
Proof. unfold session. now rewrite fold_left_app. Qed.
Lemma sound_all evs : (forall e, In e evs -> can tab e) -> sound (session tab evs).
Proof.
  induction evs as [|e evs IH] using rev_ind; intros C; [exact sound_cleared|]. rewrite session_snoc. apply sound_react.
  - apply IH. intros x Hx. apply C. apply in_or_app. now left.
  - apply C. apply in_or_app. right. now left.
Qed.
(** C225, grams: the saved summary of each phase is what the object will assimilate, and the step's mass is their sum *)
Theorem C225_partial : forall evs, (forall e, In e evs -> can tab e) -> let w := session tab evs in
  (forall ph, (ph < npc tab)%nat -> isPhase tab ph = true -> kept w ph = gramsHeld tab (inside w) ph) /\
  stepMass (inside w) = sum (npc tab) (fun i => if isPhase tab i then kept w i else 0).
Proof. intros evs C w. destruct (sound_all evs C) as (_ & K & S). split; [|exact S]. intros ph Hp Pp. now apply K. Qed.

(** C225, mole percents, when all additions of the phase had one mean weight *)
Theorem C225_percent_partial : forall evs ph M, (forall e, In e evs -> can tab e) -> (ph < npc tab)%nat -> isPhase tab ph = true -> (1 < na tab ph)%nat -> 0 < M ->
  alike tab M ph evs -> let w := session tab evs in forall j, (j < na tab ph)%nat ->
  assC (asg (inside w)) ph 0%nat <> 0 -> kept w (ph+1+j)%nat = 100 * assC (asg (inside w)) (ph+1+j)%nat 0%nat / assC (asg (inside w)) ph 0%nat.
Proof.
  intros evs ph M C Hp Pp N HM Al w j Hj Nz.
  assert (Inv : kept w ph = M * assC (asg (inside w)) ph 0%nat /\ kept w ph * kept w (ph+1+j)%nat = 100 * M * assC (asg (inside w)) (ph+1+j)%nat 0%nat).
  2: { destruct Inv as [I1 I2]. rewrite I1 in I2. apply (Rmult_eq_reg_l (M * assC (asg (inside w)) ph 0%nat)); [|apply Rmult_integral_contrapositive; split; lra].
       rewrite I2. field. exact Nz. }
  clear Nz. unfold w. clear w. revert C Al. induction evs as [|e evs IH] using rev_ind; intros C Al; [cbn; lra|].
  assert (Ce : can tab e) by (apply C; apply in_or_app; right; now left).
  assert (C' : forall x, In x evs -> can tab x) by (intros x Hx; apply C; apply in_or_app; now left).
  assert (Al' : alike tab M ph evs). { intros pre post E. apply (Al pre (post ++ [e])). rewrite E. now rewrite <- app_assoc. }
  specialize (IH C' Al'). destruct (sound_all evs C') as (P & K & _). rewrite session_snoc. specialize (Al evs []). cbv zeta in Al. set (w := session tab evs) in *.
  destruct e as [k v|cur|]; cbn [react]; [exact IH| |cbn; lra].
  destruct Ce as [Hc Pc]. destruct (Lay cur Hc Pc) as [Nc _].
  destruct (Nat.eq_dec cur ph) as [->|D].
  - destruct (Req_EM_T (fieldOf w ph) 0) as [F|F]; [destruct (click_idle ph w Nc (or_introl F)) as [-> ->]; exact IH|].
    destruct (Req_EM_T (total ph (fieldOf w)) 0) as [T|T]; [destruct (click_idle ph w Nc (or_intror (conj N T))) as [-> ->]; exact IH|].
    specialize (Al eq_refl T F). destruct (click_solution ph w N F T) as (E1 & E2 & E3).
    destruct (told_solution ph (fieldOf w ph) (fun j => normalised tab ph w (ph+j)%nat) (inside w) Hp N) as [Q1 Q2]. rewrite moles_of in * by (auto; rewrite Al; lra). rewrite Al in *.
    rewrite E2, !E3, Nat.eqb_refl, member_in by exact Hj. destruct (Nat.eqb_spec (ph+1+j) ph); [lia|]. rewrite Q1, (Q2 j Hj).
    replace (ph + S j)%nat with (ph+1+j)%nat by lia. destruct IH as [I1 I2]. unfold mixed.
    assert (Fp : 0 < fieldOf w ph) by (specialize (P ph); lra). destruct (K ph Hp Pp) as [_ Kp].
    split; [rewrite I1; field; lra|]. set (e := normalised tab ph w (ph+1+j)%nat).
    transitivity (fieldOf w ph * e + kept w ph * kept w (ph+1+j)%nat); [field; lra|]. rewrite I2. field. lra.
  - (* another phase *)
    assert (Same : kept (addClick tab cur w) ph = kept w ph /\ kept (addClick tab cur w) (ph+1+j)%nat = kept w (ph+1+j)%nat /\
      assC (asg (inside (addClick tab cur w))) ph 0%nat = assC (asg (inside w)) ph 0%nat /\
      assC (asg (inside (addClick tab cur w))) (ph+1+j)%nat 0%nat = assC (asg (inside w)) (ph+1+j)%nat 0%nat).
    2: { destruct Same as (-> & -> & -> & ->). exact IH. }
    assert (Dr : (ph+1+j)%nat <> cur).
    { intros Q. destruct (Lay ph Hp Pp) as [_ L]. destruct (L N) as [_ L2]. specialize (L2 (1+j)%nat ltac:(lia)). rewrite Nat.add_assoc, Q in L2. congruence. }
    destruct (Req_EM_T (fieldOf w cur) 0) as [F|F]; [destruct (click_idle cur w Nc (or_introl F)) as [-> ->]; tauto|].
    destruct (Nat.eq_dec (na tab cur) 1) as [N1|N1].
    + rewrite (click_pure cur w N1 F). cbn [kept inside]. unfold upd. destruct (Nat.eqb_spec ph cur); [congruence|]. destruct (Nat.eqb_spec (ph+1+j) cur); [congruence|].
      rewrite !told_other by auto. tauto.
    + assert (N2 : (1 < na tab cur)%nat) by lia.
      destruct (Req_EM_T (total cur (fieldOf w)) 0) as [T|T]; [destruct (click_idle cur w Nc (or_intror (conj N2 T))) as [-> ->]; tauto|].
      destruct (click_solution cur w N2 F T) as (E1 & E2 & E3).
      assert (A1 : member tab cur ph = false) by (apply apart; auto). assert (A2 : member tab cur (ph+1+j) = false) by (apply apart_rows; auto).
      rewrite E2, !E3, A1, A2. destruct (Nat.eqb_spec ph cur); [congruence|]. destruct (Nat.eqb_spec (ph+1+j) cur); [congruence|].
      rewrite !told_other by auto. tauto.
Qed.
End P.

Section Q.
Variable tab : Tab.
Hypothesis Lay : layout tab.
Hypothesis Hv : heavy tab.
Notation total ph f := (sum (na tab ph) (fun j => f (ph+1+j)%nat)).
Lemma sum_only n i f : (i < n)%nat -> (forall j, (j < n)%nat -> j <> i -> f j = 0) -> sum n f = f i.
Proof.
  induction n; intros Hi Z; [lia|]. cbn [sum]. destruct (Nat.eq_dec i n) as [->|D].
  - rewrite sum_0; [ring|]. intros j Hj. apply Z; lia.
  - rewrite IHn by (auto; lia). rewrite (Z n) by lia. ring.
Qed.
(** C225 is false of mole percents: ten grams of one end member, then ten of another, are shown as 50 percent whatever their weights *)
Definition twoAdds (ph i j : nat) : list Event :=
  [Enter ph 10; Enter (ph+1+i) 100; AddSolid ph; Enter (ph+1+i) 0; Enter (ph+1+j) 100; AddSolid ph].
Theorem C225_refuted : forall ph i j, (ph < npc tab)%nat -> isPhase tab ph = true -> (1 < na tab ph)%nat -> (i < na tab ph)%nat -> (j < na tab ph)%nat -> i <> j ->
  smw tab (ph+1+i)%nat <> smw tab (ph+1+j)%nat -> let w := session tab (twoAdds ph i j) in
  (forall e, In e (twoAdds ph i j) -> can tab e) /\ kept w ph = 20 /\ kept w (ph+1+i)%nat = 50 /\
  assC (asg (inside w)) ph 0%nat = 10 / smw tab (ph+1+i)%nat + 10 / smw tab (ph+1+j)%nat /\ assC (asg (inside w)) (ph+1+i)%nat 0%nat = 10 / smw tab (ph+1+i)%nat /\
  kept w (ph+1+i)%nat <> 100 * assC (asg (inside w)) (ph+1+i)%nat 0%nat / assC (asg (inside w)) ph 0%nat.
Proof.
  intros ph i j Hp Pp N Hi Hj D Ns w. destruct (Hv ph Hp Pp) as [_ W]. specialize (W N). pose proof (W i Hi) as Wi. pose proof (W j Hj) as Wj.
  split.
  { intros e He. cbn [twoAdds In] in He. destruct He as [E|[E|[E|[E|[E|[E|[]]]]]]]; subst e; cbn [can]; try lra; split; assumption. }
  assert (Alone : forall k w, (k < na tab ph)%nat -> fieldOf w (ph+1+k)%nat = 100 -> (forall l, (l < na tab ph)%nat -> l <> k -> fieldOf w (ph+1+l)%nat = 0) ->
    total ph (fieldOf w) = 100 /\ meanWeight tab (fieldOf w) ph = smw tab (ph+1+k)%nat).
  { intros k w' Hk E Z. assert (T : total ph (fieldOf w') = 100) by (rewrite (sum_only _ k) by assumption; exact E). split; [exact T|].
    unfold meanWeight. rewrite T, (sum_only _ k); [rewrite E; field|exact Hk|]. intros l Hl Dl. rewrite Z by assumption. ring. }
  unfold w, session, twoAdds. cbn [fold_left react].
  set (w1 := enterField (ph+1+i) 100 (enterField ph 10 cleared)).
  assert (F1 : fieldOf w1 ph = 10). { unfold w1, enterField, upd. cbn [fieldOf]. destruct (Nat.eqb_spec ph (ph+1+i)); [lia|]. now rewrite Nat.eqb_refl. }
  assert (F1i : fieldOf w1 (ph+1+i)%nat = 100) by (unfold w1, enterField, upd; cbn [fieldOf]; now rewrite Nat.eqb_refl).
  assert (F1z : forall l, (l < na tab ph)%nat -> l <> i -> fieldOf w1 (ph+1+l)%nat = 0).
  { intros l _ Dl. unfold w1, enterField, upd. cbn [fieldOf cleared]. destruct (Nat.eqb_spec (ph+1+l) (ph+1+i)); [lia|]. destruct (Nat.eqb_spec (ph+1+l) ph); [lia|reflexivity]. }
  destruct (Alone i w1 Hi F1i F1z) as [T1 M1].
  assert (K1 : kept w1 = kept cleared) by reflexivity. assert (I1 : inside w1 = inside cleared) by reflexivity.
  destruct (click_solution tab ph w1 N) as (A1 & A2 & A3); [lra|lra|]. set (w2 := addClick tab ph w1) in *.
  destruct (told_solution tab ph (fieldOf w1 ph) (fun j => normalised tab ph w1 (ph+j)%nat) (inside w1) Hp N) as [B1 B2].
  rewrite <- A2 in B1, B2. rewrite (moles_of tab ph w1 N) in B1, B2 by lra. rewrite M1, F1 in B1, B2.
  set (w3 := enterField (ph+1+j) 100 (enterField (ph+1+i) 0 w2)).
  assert (N1 : forall l, (l < na tab ph)%nat -> normalised tab ph w1 (ph+1+l)%nat = if Nat.eqb l i then 100 else 0).
  { intros l Hl. rewrite normalised_at, member_in by exact Hl. rewrite T1. destruct (Req_EM_T 100 0); [lra|]. destruct (Nat.eqb_spec l i) as [->|Dl]; [rewrite F1i; field|rewrite F1z by assumption; field]. }
  assert (F3 : fieldOf w3 ph = 10).
  { unfold w3, enterField, upd. cbn [fieldOf]. destruct (Nat.eqb_spec ph (ph+1+j)); [lia|]. destruct (Nat.eqb_spec ph (ph+1+i)); [lia|].
    rewrite A1, normalised_at, member_out. exact F1. }
  assert (F3j : fieldOf w3 (ph+1+j)%nat = 100) by (unfold w3, enterField, upd; cbn [fieldOf]; now rewrite Nat.eqb_refl).
  assert (F3z : forall l, (l < na tab ph)%nat -> l <> j -> fieldOf w3 (ph+1+l)%nat = 0).
  { intros l Hl Dl. unfold w3, enterField, upd. cbn [fieldOf]. destruct (Nat.eqb_spec (ph+1+l) (ph+1+j)); [lia|]. destruct (Nat.eqb_spec (ph+1+l) (ph+1+i)); [reflexivity|].
    rewrite A1, N1 by exact Hl. destruct (Nat.eqb_spec l i); [lia|reflexivity]. }
  destruct (Alone j w3 Hj F3j F3z) as [T3 M3].
  assert (K3 : kept w3 = kept w2) by reflexivity. assert (I3 : inside w3 = inside w2) by reflexivity.
  destruct (click_solution tab ph w3 N) as (C1 & C2 & C3); [lra|lra|]. set (w4 := addClick tab ph w3) in *.
  destruct (told_solution tab ph (fieldOf w3 ph) (fun j => normalised tab ph w3 (ph+j)%nat) (inside w3) Hp N) as [D1 D2].
  rewrite <- C2 in D1, D2. rewrite (moles_of tab ph w3 N) in D1, D2 by lra. rewrite M3, F3 in D1, D2. rewrite I3 in D1, D2.
  assert (Kp : kept w2 ph = 10). { rewrite A3, Nat.eqb_refl, F1, K1. cbn. ring. }
  assert (Ki : kept w2 (ph+1+i)%nat = 100).
  { rewrite A3. destruct (Nat.eqb_spec (ph+1+i) ph); [lia|]. rewrite member_in by exact Hi. unfold mixed. rewrite F1, K1, N1, Nat.eqb_refl by exact Hi. cbn. field. }
  assert (Kf : kept w4 (ph+1+i)%nat = 50).
  { rewrite C3. destruct (Nat.eqb_spec (ph+1+i) ph); [lia|]. rewrite member_in by exact Hi. unfold mixed. rewrite F3, K3, Kp, Ki.
    rewrite normalised_at, member_in, T3, F3z by auto. destruct (Req_EM_T 100 0); [lra|]. field. }
  assert (Cp : assC (asg (inside w4)) ph 0%nat = 10 / smw tab (ph+1+i)%nat + 10 / smw tab (ph+1+j)%nat).
  { rewrite D1, B1, I1. cbn. ring. }
  assert (Ci : assC (asg (inside w4)) (ph+1+i)%nat 0%nat = 10 / smw tab (ph+1+i)%nat).
  { rewrite (D2 i Hi), (B2 i Hi), I1. replace (ph + S i)%nat with (ph+1+i)%nat by lia. rewrite N1, Nat.eqb_refl by exact Hi.
    rewrite normalised_at, member_in, T3, F3z by auto. destruct (Req_EM_T 100 0); [lra|]. cbn. field. split; lra. }
  split; [rewrite C3, Nat.eqb_refl, K3, Kp, F3; ring|]. split; [exact Kf|]. split; [exact Cp|]. split; [exact Ci|].
  rewrite Kf, Cp, Ci. intros Q. apply Ns.
  assert (G : 100 * (10 / smw tab (ph+1+i)%nat) / (10 / smw tab (ph+1+i)%nat + 10 / smw tab (ph+1+j)%nat) = 100 * smw tab (ph+1+j)%nat / (smw tab (ph+1+i)%nat + smw tab (ph+1+j)%nat)).
  { field. repeat split; lra. }
  rewrite G in Q. apply (f_equal (fun x => x * (smw tab (ph+1+i)%nat + smw tab (ph+1+j)%nat))) in Q. unfold Rdiv in Q. rewrite Rmult_assoc, Rinv_l, Rmult_1_r in Q by lra. lra.
Qed.

(** C226: "Add solid" leaves the fields of the other phases alone. True when a solution is added ... *)
Definition fieldsOf (i k : nat) : Prop := k = i \/ ((1 < na tab i)%nat /\ (i < k <= i + na tab i)%nat).
Theorem C226_partial : forall ph i k w, (ph < npc tab)%nat -> isPhase tab ph = true -> (i < npc tab)%nat -> isPhase tab i = true -> i <> ph -> fieldsOf i k ->
  (1 < na tab ph)%nat \/ fieldOf w (ph+1)%nat = 0 -> fieldOf (addClick tab ph w) k = fieldOf w k.
Proof.
  intros ph i k w Hp Pp Hi Pi D Fk H. rewrite click_fields, normalised_at. destruct (Lay ph Hp Pp) as [L1 _].
  destruct (Nat.eq_dec (na tab ph) 1) as [N|N].
  - destruct H as [H|H]; [lia|]. destruct (member tab ph k) eqn:M; [|reflexivity]. destruct (member_is _ _ _ M) as (j & Hj & ->). rewrite N in *.
    assert (j = 0)%nat by lia. subst j. rewrite Nat.add_0_r. cbn [sum]. rewrite Nat.add_0_r. rewrite H. destruct (Req_EM_T (0 + 0) 0); [reflexivity|lra].
  - assert (M : member tab ph k = false); [|now rewrite M]. destruct Fk as [->|[Ni Fk]]; [apply (apart tab Lay); auto; lia|].
    replace k with (i + 1 + (k - i - 1))%nat by lia. apply (apart_rows tab Lay); auto; lia.
Qed.
(** ... and false when a pure phase is: the field below it is made 100, even if no mass was typed *)
Theorem C226_refuted : forall ph w, na tab ph = 1%nat -> 0 < fieldOf w (ph+1)%nat -> fieldOf (addClick tab ph w) (ph+1)%nat = 100.
Proof.
  intros ph w N P. rewrite click_fields, normalised_at. pose proof (member_in tab ph 0 ltac:(lia)) as M. rewrite Nat.add_0_r in M. rewrite M, N. cbn [sum]. rewrite Nat.add_0_r.
  destruct (Req_EM_T (0 + fieldOf w (ph+1)%nat) 0); [lra|]. field. lra.
Qed.
(** so that three grams typed for the next phase are added as a hundred *)
Theorem C226_next : forall ph, (S ph < npc tab)%nat -> isPhase tab ph = true -> isPhase tab (S ph) = true -> na tab ph = 1%nat -> na tab (S ph) = 1%nat ->
  let w := session tab [Enter (S ph) 3; Enter ph 5; AddSolid ph; AddSolid (S ph)] in
  kept w ph = 5 /\ kept w (S ph) = 100 /\ gramsHeld tab (inside w) (S ph) = 100 /\ stepMass (inside w) = 105.
Proof.
  intros ph Hn P1 P2 N1 N2 w. unfold w, session. cbn [fold_left react].
  set (w1 := enterField ph 5 (enterField (S ph) 3 cleared)).
  assert (Fp : fieldOf w1 ph = 5) by (unfold w1, enterField, upd; cbn [fieldOf]; now rewrite Nat.eqb_refl).
  assert (Fs : fieldOf w1 (S ph) = 3). { unfold w1, enterField, upd; cbn [fieldOf]. destruct (Nat.eqb_spec (S ph) ph); [lia|]. now rewrite Nat.eqb_refl. }
  rewrite (click_pure tab ph w1 N1) by lra. rewrite Fp.
  assert (G : normalised tab ph w1 (S ph) = 100).
  { pose proof (C226_refuted ph w1 N1) as H. rewrite click_fields in H. replace (ph+1)%nat with (S ph) in H by lia. apply H. lra. }
  set (w2 := mkWin (normalised tab ph w1) _ _). rewrite (click_pure tab (S ph) w2 N2) by (unfold w2; cbn [fieldOf]; lra). unfold w2. cbn [fieldOf kept inside]. rewrite G.
  assert (K : kept w1 = fun _ => 0) by reflexivity. rewrite K. cbn beta.
  split; [unfold upd; destruct (Nat.eqb_spec ph (S ph)); [lia|]; rewrite Nat.eqb_refl; ring|].
  split; [unfold upd; rewrite Nat.eqb_refl; destruct (Nat.eqb_spec (S ph) ph); [lia|ring]|].
  destruct (Hv (S ph) Hn P2) as [W _]. specialize (W N2). split.
  - unfold gramsHeld. rewrite N2. cbn [Nat.eqb]. rewrite told_pure by assumption. rewrite told_other by (auto; lia). cbn. field. lra.
  - rewrite told_mass by exact Hn. rewrite told_mass by lia. cbn. ring.
Qed.
End Q.
