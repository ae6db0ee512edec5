(** C211-C213 on the tables the program ships, and a case. *)
From Coq Require Import Reals QArith Qcanon Qreals String Bool Arith ZArith Lia Lra.
From Verif Require Import MassModel MassSpec MassProofs MassFrac MassProps InitModel InitProofs InitProps InitCert Tables ElmTable IfaceProps AsmModel AsmProps.
From Coq Require Import List. Import ListNotations.
Local Open Scope R_scope.

Lemma sum_positive n f i : (forall j, (j < n)%nat -> 0 <= f j) -> (i < n)%nat -> 0 < f i -> 0 < sum n f.
Proof.
  induction n; intros P Hi F; [lia|]. cbn [sum].
  assert (Q : 0 <= sum n f). { clear - P. induction n; cbn [sum]; [lra|]. specialize (IHn ltac:(intros; apply P; lia)). specialize (P n ltac:(lia)). lra. }
  destruct (Nat.eq_dec i n) as [->|]; [lra|]. specialize (IHn ltac:(intros; apply P; lia) ltac:(lia) F). specialize (P n ltac:(lia)). lra.
Qed.
Lemma row_weight m t c : initialised m t -> In m modes -> (c < npc t)%nat -> solidFormula m c <> ""%string -> 0 < smw t c.
Proof.
  intros It Hm Hc Nf. rewrite (in_smw m t It c Hc). rewrite (in_npc m t It) in Hc.
  assert (K : forallb (fun m => forallb (fun x : string * bool * string => String.eqb (snd x) "" || negb (Qle_bool (this (fst (parsed (snd x)))) 0)) (mSol m)) modes = true) by (vm_compute; reflexivity).
  rewrite forallb_forall in K. specialize (K m Hm). rewrite forallb_forall in K.
  specialize (K _ (nth_In (mSol m) (""%string, false, ""%string) Hc)). unfold QR.
  replace 0 with (Q2R 0) by (unfold Q2R; cbn; lra). apply Qlt_Rlt. apply orb_prop in K. destruct K as [K|K]; [apply String.eqb_eq in K; contradiction|]. apply negb_true_iff in K.
  apply Qnot_le_lt. intros L. apply Qle_bool_iff in L.
  unfold solidFormula in L. match type of L with ?x = true => match type of K with ?y = false => change (x = false) in K end end. congruence.
Qed.
(** every pure phase and every end member of the tables has a formula *)
Definition rowsOf (m : Mode) (i : nat) : list nat :=
  if Nat.eqb (naOf (phaseTypes m) i) 1 then [i] else map (fun j => (i + 1 + j)%nat) (seq 0 (naOf (phaseTypes m) i)).
Lemma formulas_there m i c : In m modes -> (i < List.length (mSol m))%nat -> nth i (phaseTypes m) false = true -> In c (rowsOf m i) -> solidFormula m c <> ""%string.
Proof.
  intros Hm Hi Pi Hc E.
  assert (K : forallb (fun m => forallb (fun i => negb (nth i (phaseTypes m) false) || forallb (fun c => negb (String.eqb (solidFormula m c) "")) (rowsOf m i)) (seq 0 (List.length (mSol m)))) modes = true) by (vm_compute; reflexivity).
  rewrite forallb_forall in K. specialize (K m Hm). rewrite forallb_forall in K. specialize (K i ltac:(apply in_seq; lia)).
  rewrite Pi in K. cbn [negb orb] in K. rewrite forallb_forall in K. specialize (K c Hc). rewrite E in K. discriminate K.
Qed.
(** any call with percentages that are not negative and, for a solution, not all zero *)
Definition sensible (t : Tab) (c : Call) : Prop :=
  (phase c <= npc t)%nat /\ ((phase c < npc t)%nat -> isPhase t (phase c) = true) /\ (forall o, 0 <= percent c o) /\
  ((phase c < npc t)%nat -> (1 < na t (phase c))%nat -> exists j, (j < na t (phase c))%nat /\ 0 < percent c (S j)).
Lemma sensible_describes m t c : In m modes -> initialised m t -> sensible t c -> describes t c.
Proof.
  intros Hm It (A & B & C & D). destruct (Nat.eq_dec (phase c) (npc t)) as [E|E]; [now left|]. right.
  assert (Hp : (phase c < npc t)%nat) by lia. specialize (B Hp). specialize (D Hp).
  pose proof (in_na m t It _ Hp B) as N. pose proof (in_type m t It _ Hp) as T. rewrite B in T. symmetry in T.
  pose proof Hp as Hl. rewrite (in_npc m t It) in Hl.
  destruct (init_layout m t It _ Hp B) as [L1 L2].
  split; [exact Hp|]. split; [exact B|]. split.
  - intros E1. apply Rgt_not_eq. apply (row_weight m t _ It Hm Hp). apply (formulas_there m (phase c) (phase c) Hm Hl T).
    unfold rowsOf. rewrite <- N, E1. now left.
  - intros E1. destruct (D E1) as (j & Hj & P). apply Rgt_not_eq. unfold weight. destruct (L2 E1) as [L3 _].
    assert (W : forall k, (k < na t (phase c))%nat -> 0 < smw t (phase c + 1 + k)%nat).
    { intros k Hk. apply (row_weight m t (phase c + 1 + k)%nat It Hm ltac:(lia)). apply (formulas_there m (phase c) (phase c + 1 + k)%nat Hm Hl T).
      unfold rowsOf. rewrite <- N. destruct (Nat.eqb_spec (na t (phase c)) 1); [lia|]. apply in_map_iff. exists k. split; [reflexivity|]. apply in_seq. lia. }
    apply (sum_positive _ _ j); [|exact Hj|apply Rmult_lt_0_compat; auto].
    intros k Hk. apply Rmult_le_pos; [apply C|left; now apply W].
Qed.
(** C211 *)
Theorem C211_shipped : forall m t calls s, In m modes -> initialised m t ->
  (forall c, In c calls -> sensible t c /\ complete t c) -> (0 < nLiq s)%nat -> (hasLiquid s = false -> emptyAbsent t s) ->
  let s' := assimilate t (asg (enter t calls)) 1 s in
  (forall o, (o < nc t)%nat -> bulk s' o = bulk s o + intake t (fun c => oxideIn t c o) calls) /\
  sum (nc t) (fun o => bulk s' o * omw t o) = sum (nc t) (fun o => bulk s o * omw t o) + intake t grams calls /\
  (balanced t s -> balanced t s').
Proof.
  intros m t calls s Hm It V NL Em. destruct (checked m Hm) as [ce Ch].
  assert (D : forall c, In c calls -> describes t c) by (intros c Hc; apply (sensible_describes m t c Hm It); now apply V).
  assert (Mw : forall o, (o < nc t)%nat -> omw t o <> 0) by (intros o Ho; apply Rgt_not_eq; exact (omw_pos m t o It Ho)).
  rewrite <- (C211_grams t (init_layout m t It) (init_invertible m t It ce Ch) Mw calls D).
  apply (C211_assimilated t (init_layout m t It) (init_invertible m t It ce Ch) Mw (init_weight m t It ce Ch)
    (fun o Ho => init_agrees m t It ce Ch o Ho) calls s); auto.
  intros c Hc. split; [now apply D|now apply V].
Qed.
(** a case on the tables of rhyolite-MELTS: 50 g of olivine Fo50 (six end members, the second and the last given), 10 g of
    fayalite, and a liquid of SiO2, 20 g, replaced by 30 g *)
Definition theCalls (np : nat) : list Call :=
  [mkCall 0 50 (fun k => if Nat.eqb k 2 then 50 else if Nat.eqb k 6 then 50 else 0); mkCall 7 10 (fun _ => 0);
   mkCall np 20 (fun o => if Nat.eqb o 0 then 100 else 0); mkCall np 30 (fun o => if Nat.eqb o 0 then 100 else 0)].
Lemma case_sensible t : initialised mode_meltsFluid t -> forall c, In c (theCalls (npc t)) -> sensible t c /\ complete t c /\ full t c.
Proof.
  intros It c H. assert (L : (8 < npc t)%nat).
  { rewrite (in_npc _ _ It). apply Nat.ltb_lt. vm_compute. reflexivity. }
  assert (P0 : isPhase t 0 = true) by (rewrite (in_type _ _ It) by lia; vm_compute; reflexivity).
  assert (P7 : isPhase t 7 = true) by (rewrite (in_type _ _ It) by lia; vm_compute; reflexivity).
  assert (N0 : na t 0 = 6%nat) by (rewrite (in_na _ _ It 0 ltac:(lia) P0); vm_compute; reflexivity).
  assert (N7 : na t 7 = 1%nat) by (rewrite (in_na _ _ It 7 ltac:(lia) P7); vm_compute; reflexivity).
  assert (Hn : nc t = 19%nat) by (rewrite (in_nc _ _ It); reflexivity).
  cbn [theCalls In] in H. destruct H as [H|[H|[H|[H|H]]]]; try contradiction; subst c; unfold sensible, complete, full; cbn [phase percent].
  - split; [|split; [intros; lia|]].
    + split; [lia|]. split; [auto|]. split; [intros o; destruct (Nat.eqb o 2); [lra|]; destruct (Nat.eqb o 6); lra|].
      intros _ _. exists 1%nat. split; [lia|]. cbn. lra.
    + intros _ _. rewrite N0. cbn. lra.
  - split; [|split; [intros; lia|intros; lia]]. split; [lia|]. split; [auto|]. split; [intros; lra|]. intros; lia.
  - split; [|split; [intros; rewrite Hn; cbn; lra|intros; lia]]. split; [lia|]. split; [intros; lia|]. split; [intros o; destruct (Nat.eqb o 0); lra|]. intros; lia.
  - split; [|split; [intros; rewrite Hn; cbn; lra|intros; lia]]. split; [lia|]. split; [intros; lia|]. split; [intros o; destruct (Nat.eqb o 0); lra|]. intros; lia.
Qed.
Theorem C211_case : forall t s, initialised mode_meltsFluid t -> (0 < nLiq s)%nat -> hasLiquid s = true ->
  let a := enter t (theCalls (npc t)) in
  stepMass a = 90 /\ nAssLiq (asg a) = 1%nat /\
  sum (nc t) (fun o => bulk (assimilate t (asg a) 1 s) o * omw t o) = sum (nc t) (fun o => bulk s o * omw t o) + 90.
Proof.
  intros t s It NL HL. cbv zeta. assert (Hm : In mode_meltsFluid modes) by (right; right; left; reflexivity).
  destruct (checked _ Hm) as [ce Ch].
  assert (L : (8 < npc t)%nat). { rewrite (in_npc _ _ It). apply Nat.ltb_lt. vm_compute. reflexivity. }
  assert (I : intake t grams (theCalls (npc t)) = 90).
  { unfold intake, totals, theCalls. cbn [fold_left phase grams]. destruct (Nat.eqb_spec 0 (npc t)); [lia|]. destruct (Nat.eqb_spec 7 (npc t)); [lia|].
    rewrite !Nat.eqb_refl. cbn [fst snd]. ring. }
  assert (V : forall c, In c (theCalls (npc t)) -> sensible t c /\ complete t c) by (intros c Hc; destruct (case_sensible t It c Hc); tauto).
  split; [|split].
  - rewrite (C211_grams t (init_layout _ t It) (init_invertible _ t It ce Ch) (fun o Ho => Rgt_not_eq _ _ (omw_pos _ t o It Ho))); [exact I|].
    intros c Hc. apply (sensible_describes _ t c Hm It). now apply V.
  - unfold enter, theCalls. cbn [fold_left phase grams percent]. set (a := addAssimilant t (npc t) 20 _ _). unfold addAssimilant. cbv zeta. rewrite Nat.eqb_refl, Nat.ltb_irrefl. reflexivity.
  - destruct (C211_shipped _ t (theCalls (npc t)) s Hm It V NL ltac:(congruence)) as (_ & M & _). rewrite M, I. ring.
Qed.
(** C212 is met by the two solids of the case *)
Theorem C212_case : forall t pureS pureL mixS mixL garbage, initialised mode_meltsFluid t -> let calls := firstn 2 (theCalls (npc t)) in
  stepMass (enter t calls) = 60 /\
  assimProp t pureS pureL mixS mixL garbage (enter t calls) = Some (solidsProp t pureS mixS (fun c => assC (asg (enter t calls)) c 0%nat)).
Proof.
  intros t pureS pureL mixS mixL garbage It. cbv zeta. assert (Hm : In mode_meltsFluid modes) by (right; right; left; reflexivity).
  destruct (checked _ Hm) as [ce Ch].
  assert (L : (8 < npc t)%nat). { rewrite (in_npc _ _ It). apply Nat.ltb_lt. vm_compute. reflexivity. }
  assert (V : forall c, In c (firstn 2 (theCalls (npc t))) -> (phase c < npc t)%nat /\ describes t c /\ full t c).
  { intros c Hc. assert (Hc' : In c (theCalls (npc t))) by (cbn [firstn theCalls In] in *; tauto).
    destruct (case_sensible t It c Hc') as (S & _ & F). split; [|split; [now apply (sensible_describes _ t c Hm It)|exact F]].
    cbn [firstn theCalls In] in Hc. destruct Hc as [H|[H|H]]; [subst c; cbn; lia|subst c; cbn; lia|contradiction]. }
  assert (M : stepMass (enter t (firstn 2 (theCalls (npc t)))) = 60).
  { rewrite (C211_grams t (init_layout _ t It) (init_invertible _ t It ce Ch) (fun o Ho => Rgt_not_eq _ _ (omw_pos _ t o It Ho))) by (intros c Hc; now apply V).
    unfold intake, totals, theCalls. cbn [firstn fold_left phase grams]. destruct (Nat.eqb_spec 0 (npc t)); [lia|]. destruct (Nat.eqb_spec 7 (npc t)); [lia|]. cbn [fst snd]. ring. }
  split; [exact M|]. apply (C212_solids t (init_layout _ t It)); [exact V|]. rewrite M. lra.
Qed.
