(** C225, C226 on the tables the program ships. *)
From Coq Require Import Reals QArith Qcanon Qreals String Bool Arith ZArith Lia Lra.
From Verif Require Import MassModel MassSpec MassProofs InitModel InitProofs InitProps InitCert Tables AsmModel AsmProps AsmCase DlgModel DlgProps.
From Coq Require Import List. Import ListNotations.
Local Open Scope R_scope.

Lemma shipped_heavy m t : In m modes -> initialised m t -> heavy t.
Proof.
  intros Hm It ph Hp Pp. pose proof (in_na m t It _ Hp Pp) as N. pose proof (in_type m t It _ Hp) as T. rewrite Pp in T. symmetry in T.
  pose proof Hp as Hl. rewrite (in_npc m t It) in Hl. destruct (init_layout m t It _ Hp Pp) as [L1 L2]. split.
  - intros E1. apply (row_weight m t _ It Hm Hp). apply (formulas_there m ph ph Hm Hl T). unfold rowsOf. rewrite <- N, E1. now left.
  - intros E1 j Hj. destruct (L2 E1) as [L3 _]. apply (row_weight m t (ph+1+j)%nat It Hm ltac:(lia)). apply (formulas_there m ph (ph+1+j)%nat Hm Hl T).
    unfold rowsOf. rewrite <- N. destruct (Nat.eqb_spec (na t ph) 1); [lia|]. apply in_map_iff. exists j. split; [reflexivity|]. apply in_seq. lia.
Qed.
(** C225 in every mode *)
Theorem C225_shipped : forall m t, In m modes -> initialised m t -> forall evs, (forall e, In e evs -> can t e) -> let w := session t evs in
  (forall ph, (ph < npc t)%nat -> isPhase t ph = true -> kept w ph = gramsHeld t (inside w) ph) /\
  stepMass (inside w) = sum (npc t) (fun i => if isPhase t i then kept w i else 0).
Proof. intros m t Hm It evs C. exact (C225_partial t (init_layout m t It) (shipped_heavy m t Hm It) evs C). Qed.

Section Fluid.
Variable t : Tab.
Hypothesis It : initialised mode_meltsFluid t.
Let Hm : In mode_meltsFluid modes. Proof. right; right; left; reflexivity. Qed.
Lemma many : (9 < npc t)%nat.
Proof. rewrite (in_npc _ _ It). apply Nat.ltb_lt. vm_compute. reflexivity. Qed.
Lemma olivine_rows : isPhase t 0 = true /\ na t 0 = 6%nat.
Proof.
  pose proof many as L. assert (P0 : isPhase t 0 = true) by (rewrite (in_type _ _ It) by lia; vm_compute; reflexivity).
  split; [exact P0|]. rewrite (in_na _ _ It 0 ltac:(lia) P0). vm_compute. reflexivity.
Qed.
Lemma pure_rows : forall i, (i = 7 \/ i = 8)%nat -> isPhase t i = true /\ na t i = 1%nat.
Proof.
  pose proof many as L. intros i [E|E]; subst i.
  - assert (P0 : isPhase t 7 = true) by (rewrite (in_type _ _ It) by lia; vm_compute; reflexivity).
    split; [exact P0|]. rewrite (in_na _ _ It 7 ltac:(lia) P0). vm_compute. reflexivity.
  - assert (P0 : isPhase t 8 = true) by (rewrite (in_type _ _ It) by lia; vm_compute; reflexivity).
    split; [exact P0|]. rewrite (in_na _ _ It 8 ltac:(lia) P0). vm_compute. reflexivity.
Qed.
Lemma QR_neq a b : Qeq_bool (this a) (this b) = false -> QR a <> QR b.
Proof. intros H E. apply Qeq_bool_neq in H. apply H. unfold QR in E. now apply eqR_Qeq. Qed.
(** olivine: fayalite (row 2), then forsterite (row 6), ten grams each *)
Theorem C225_olivine : let w := session t (twoAdds 0 1 5) in
  (forall e, In e (twoAdds 0 1 5) -> can t e) /\ kept w 0%nat = 20 /\ kept w 2%nat = 50 /\
  kept w 2%nat <> 100 * assC (asg (inside w)) 2%nat 0%nat / assC (asg (inside w)) 0%nat 0%nat.
Proof.
  pose proof many as L. destruct olivine_rows as [P0 N0].
  assert (D : smw t 2 <> smw t 6). { rewrite !(in_smw _ _ It) by lia. apply QR_neq. vm_compute. reflexivity. }
  destruct (C225_refuted t (shipped_heavy _ t Hm It) 0 1 5 ltac:(lia) P0 ltac:(lia) ltac:(lia) ltac:(lia) ltac:(lia) D) as (A & B & C & _ & _ & E).
  split; [exact A|]. split; [exact B|]. split; [exact C|exact E].
Qed.
(** sphene's 3 g become 100 g after fayalite is added *)
Theorem C226_sphene : let w := session t [Enter 8 3; Enter 7 5; AddSolid 7; AddSolid 8] in
  kept w 7%nat = 5 /\ kept w 8%nat = 100 /\ gramsHeld t (inside w) 8 = 100 /\ stepMass (inside w) = 105.
Proof.
  pose proof many as L. destruct (pure_rows 7 (or_introl eq_refl)) as [P7 N7]. destruct (pure_rows 8 (or_intror eq_refl)) as [P8 N8].
  exact (C226_next t (shipped_heavy _ t Hm It) 7 ltac:(lia) P7 P8 N7 N8).
Qed.
(** a case for the percents: one addition of olivine, forsterite alone *)
Definition oneAdd : list Event := [Enter 0 10; Enter 6 80; AddSolid 0].
Theorem C225_percent_case : let w := session t oneAdd in
  (forall e, In e oneAdd -> can t e) /\ alike t (smw t 6) 0 oneAdd /\ 0 < smw t 6 /\ kept w 0%nat = 10 /\ kept w 6%nat = 100 /\
  assC (asg (inside w)) 0%nat 0%nat = 10 / smw t 6 /\ kept w 6%nat = 100 * assC (asg (inside w)) 6%nat 0%nat / assC (asg (inside w)) 0%nat 0%nat.
Proof.
  pose proof many as L. destruct olivine_rows as [P0 N0]. pose proof (init_layout _ t It) as Lay. pose proof (shipped_heavy _ t Hm It) as Hv.
  assert (W : 0 < smw t 6). { destruct (Hv 0%nat ltac:(lia) P0) as [_ H]. exact (H ltac:(lia) 5%nat ltac:(lia)). }
  assert (C : forall e, In e oneAdd -> can t e).
  { intros e He. cbn [oneAdd In] in He. destruct He as [E|[E|[E|[]]]]; subst e; cbn [can]; try lra; split; [lia|exact P0]. }
  set (w0 := enterField 6 80 (enterField 0 10 cleared)).
  assert (T : sum (na t 0) (fun j => fieldOf w0 (0+1+j)%nat) = 80) by (rewrite N0; cbn; lra).
  assert (M : meanWeight t (fieldOf w0) 0 = smw t 6).
  { unfold meanWeight. rewrite T, N0. cbn. field. }
  assert (A : alike t (smw t 6) 0 oneAdd).
  { intros pre post E. destruct pre as [|e0 [|e1 [|e2 [|e3 pre]]]]; cbn in E; try discriminate E.
    - injection E as <- <- <-. cbv zeta. intros _ _. exact M.
    }
  split; [exact C|]. split; [exact A|]. split; [exact W|].
  assert (F0 : fieldOf w0 0%nat = 10) by reflexivity.
  destruct (click_solution t 0 w0 ltac:(lia)) as (E1 & E2 & E3); [lra|lra|].
  assert (K0 : kept (addClick t 0 w0) 0%nat = 10) by (rewrite E3; cbn; ring).
  assert (Cp : assC (asg (inside (addClick t 0 w0))) 0%nat 0%nat = 10 / smw t 6).
  { rewrite E2. destruct (told_solution t 0 (fieldOf w0 0%nat) (fun j => normalised t 0 w0 (0+j)%nat) (inside w0) ltac:(lia) ltac:(lia)) as [B _]. rewrite B.
    rewrite (moles_of t 0 w0) by (try lia; lra). rewrite M, F0. cbn. ring. }
  assert (K6 : kept (addClick t 0 w0) 6%nat = 100).
  { rewrite E3. cbn [Nat.eqb]. assert (Mb : member t 0 6 = true) by (unfold member; rewrite N0; reflexivity). rewrite Mb. unfold mixed. rewrite normalised_at, Mb, T.
    destruct (Req_EM_T 80 0); [lra|]. cbn. field. }
  change (session t oneAdd) with (addClick t 0 w0). split; [exact K0|]. split; [exact K6|]. split; [exact Cp|].
  exact (C225_percent_partial t Lay Hv oneAdd 0 (smw t 6) C ltac:(lia) P0 ltac:(lia) W A 5%nat ltac:(lia) ltac:(change (session t oneAdd) with (addClick t 0 w0); rewrite Cp; apply Rgt_not_eq; apply Rdiv_lt_0_compat; lra)).
Qed.
End Fluid.
Print Assumptions C225_shipped.
Print Assumptions C225_olivine.
Print Assumptions C226_sphene.
Print Assumptions C225_percent_case.
