(** Fractionation in both programs: matter, and the enthalpy (entropy, volume) that goes with it. *)
From Coq Require Import Reals List Lia Lra Bool Arith.
From Verif Require Import MassModel MassSpec MassProofs MassOps MassDrop MassSolve MassFrac MassProps LibFracModel.
Open Scope R_scope.

(** ** Specification: the enthalpy (entropy, volume) of the phases present *)
Section Spec.
Variable tab : Tab.
Variables (pureS pureL : nat -> R) (mixS : nat -> (nat -> R) -> R) (mixL : (nat -> R) -> R).
(** a pure phase: moles times the property per mole; a solution: the same for its end members, and mixing *)
Definition phaseContent (s : St) (i ns : nat) : R :=
  if Nat.eqb (na tab i) 1 then solC s i ns * pureS i
  else sum (na tab i) (fun j => solC s (i+1+j)%nat ns * pureS (i+1+j)%nat)
       + sum (na tab i) (fun j => solC s (i+1+j)%nat ns) * mixS i (fun j => solC s (i+1+j)%nat ns).
Definition liquidContent (s : St) (nl : nat) : R :=
  sum (nlc tab) (fun j => liqC s nl j * pureL j) + sum (nlc tab) (liqC s nl) * mixL (liqC s nl).
Definition content (s : St) : R :=
  sum (npc tab) (fun i => if isPhase tab i then sum (nSol s i) (phaseContent s i) else 0) + sum (nLiq s) (liquidContent s).
(** mixing per mole depends on the proportions only *)
Definition intensive : Prop :=
  (forall i, isPhase tab i = true -> forall m m' c, c <> 0 -> (forall j, (j < na tab i)%nat -> m' j = c * m j) -> mixS i m' = mixS i m) /\
  (forall m m' c, c <> 0 -> (forall j, (j < nlc tab)%nat -> m' j = c * m j) -> mixL m' = mixL m).
(** the reference keeps up with the phases, or has come to be unset *)
Definition keepsUp (p p' : St * R) : Prop := snd p' = 0 \/ snd p' - content (fst p') = snd p - content (fst p).
(** every solid present has some moles *)
Definition stocked (s : St) : Prop := forall i ns, (i < npc tab)%nat -> isPhase tab i = true -> (ns < nSol s i)%nat -> 0 < solC s i ns.
End Spec.
(** no oxide of the system is a trace to be forgotten *)
Definition noTrace (tab : Tab) (s : St) : Prop :=
  forall o, (o < nc tab)%nat -> bulk s o = 0 \/ MASSOUT <= bulk s o \/ isFe2O3 tab o = true.

Lemma took x a E E' : E' = 0 \/ E' = E - a -> take x E' = 0 \/ take x E' = E - (a + x).
Proof. unfold take. intros [->| ->]; [destruct (Req_EM_T 0 0); lra|]. destruct (Req_EM_T (E - a) 0); [left; assumption|right; ring]. Qed.
Lemma took_loop n (f : nat -> R) E : let E' := loop n (fun j E => take (f j) E) E in E' = 0 \/ E' = E - sum n f.
Proof.
  cbv zeta. induction n; [right; cbn; ring|]. rewrite loop_S. cbn [sum]. apply took. exact IHn.
Qed.

Lemma sum_minus n f g : sum n (fun i => f i - g i) = sum n f - sum n g.
Proof. induction n; cbn [sum]; [ring|rewrite IHn; ring]. Qed.

Section P.
Variable tab : Tab.
Hypothesis Lay : layout tab.
Variable cols : nat -> nat.
Variables (pureS pureL : nat -> R) (mixS : nat -> (nat -> R) -> R) (mixL : (nat -> R) -> R).
Notation leaves := (leaves tab).
Notation Ledger := (Ledger tab cols).

(** ** One column of one phase *)
Lemma libColumn_pure i ns s : (ns < nSol s i)%nat -> na tab i = 1%nat -> libColumn tab i ns s = transfer tab i ns MASSIN s.
Proof. intros H N. unfold libColumn. destruct (Nat.ltb_spec ns (nSol s i)); [|lia]. cbn [negb]. rewrite N. reflexivity. Qed.
Lemma libColumn_solution i ns s : (ns < nSol s i)%nat -> (1 < na tab i)%nat ->
  libColumn tab i ns s =
  setSol i ns MASSIN (loop (na tab i) (frStep tab i ns)
    (setFracS (upd2 (fracS s) i ns (fracS s i ns + (solC s i ns - MASSIN))) s)).
Proof.
  intros H N. unfold libColumn. destruct (Nat.ltb_spec ns (nSol s i)); [|lia]. cbn [negb].
  destruct (Nat.eqb_spec (na tab i) 1); [lia|]. reflexivity.
Qed.
Lemma libColumn_graphical i ns s : (ns < nSol s i)%nat -> MASSIN <= solC s i ns -> fracColumn tab i ns s = libColumn tab i ns s.
Proof.
  intros H L. unfold fracColumn, libColumn. destruct (Nat.ltb_spec ns (nSol s i)); [|lia]. cbn [negb].
  destruct (Rlt_dec (solC s i ns) MASSIN); [lra|]. reflexivity.
Qed.
Lemma column_spec G g i ns s : Ledger G -> (i < npc tab)%nat -> isPhase tab i = true ->
  (nSol s i <= cols i)%nat -> (ns < nSol s i)%nat ->
  let t := column tab g i ns s in
  G t = G s /\ nSol t = nSol s /\ nLiq t = nLiq s /\ hasLiquid t = hasLiquid s /\ liqC t = liqC s /\
  (forall c x, x <> ns \/ ~ usedRow tab i c -> solC t c x = solC s c x) /\
  (g = true -> solC s i ns < MASSIN -> t = s) /\ (g = false \/ MASSIN <= solC s i ns -> leaves s t i ns).
Proof.
  intros LG Hi Pi Hc Hns. cbv zeta. destruct g; cbn [column].
  { destruct (fracColumn_spec tab Lay cols G i ns s LG Hi Pi Hc Hns) as (A & B & C & D & E & F & K & L).
    csp; auto. intros [X|X]; [discriminate|auto]. }
  destruct (na_cases tab Lay i Hi Pi) as [N|N].
  - rewrite libColumn_pure by auto.
    destruct (transfer_fields tab i ns MASSIN s) as (T1 & T2 & T3 & T4 & T5 & _).
    split; [apply (led_sol tab cols G LG s i); auto; [left; auto|lia]|]. rewrite T1, T2, T3, T4.
    csp; auto.
    + intros c x Hx. rewrite T5. destruct (Nat.eq_dec c i) as [->|Ne].
      * apply upd2_col. destruct Hx as [|Hx]; auto. exfalso. apply Hx. left; auto.
      * now apply upd2_row.
    + intros; discriminate.
    + intros _. split; [rewrite T5; apply upd2_eq|].
      intros c [[_ ->]|[N' _]] Ne; [congruence|lia].
  - rewrite libColumn_solution by auto.
    set (s1 := setFracS _ s).
    destruct (frSteps tab cols G i ns s1 LG Hi Pi N Hns ltac:(lia) (na tab i) (le_n _)) as (A & B & C & D & E & F & K).
    set (t := loop (na tab i) (frStep tab i ns) s1) in *.
    split; [rewrite (led_tot tab cols G LG) by auto; rewrite A; unfold s1; now rewrite (led_ftot tab cols G LG) by auto|].
    split; [exact B|]. split; [exact C|]. split; [exact D|]. split; [exact E|]. split; [|split].
    + intros c x Hx. cbn. destruct (Nat.eq_dec c i) as [->|Ne].
      * rewrite upd2_col. { apply F. right. lia. } destruct Hx as [|Hx]; auto. exfalso. apply Hx. left; auto.
      * rewrite upd2_row by auto. apply F. destruct Hx as [|Hx]; auto. right.
        destruct (Nat.le_gt_cases c i); auto. right. destruct (Nat.le_gt_cases c (i + na tab i)); [|lia].
        exfalso. apply Hx. right. right. lia.
    + intros; discriminate.
    + intros _. split; [cbn; apply upd2_eq|].
      intros c Rc Ne. cbn. rewrite upd2_row by auto. rewrite K; [reflexivity|].
      destruct Rc as [[N' _]|[_ Rc]]; lia.
Qed.

(** the reference in a column *)
Hypothesis Mix : intensive tab mixS mixL.
Lemma sum_mul n (f g : nat -> R) c : (forall j, (j < n)%nat -> f j = c * g j) -> sum n f = c * sum n g.
Proof. intros H. rewrite <- sum_scal. now apply sum_ext. Qed.
Lemma mix_part n (m : nat -> R) (mix : (nat -> R) -> R) f :
  (forall m' c, c <> 0 -> (forall j, (j < n)%nat -> m' j = c * m j) -> mix m' = mix m) ->
  forall x, f <> 0 -> (forall j, (j < n)%nat -> x j = m j - f * m j) ->
  sum n x * mix x = sum n m * mix m - sum n (fun j => f * m j) * mix (fun j => f * m j).
Proof.
  intros H x Nf X. rewrite (H (fun j => f * m j) f Nf) by reflexivity. rewrite (sum_mul n (fun j => f * m j) m f) by reflexivity.
  rewrite (sum_mul n x m (1 - f)) by (intros j Hj; rewrite X by auto; ring).
  destruct (Req_EM_T f 1) as [->|N1]; [ring|].
  rewrite (H x (1 - f)); [ring|intros Z; lra|intros j Hj; rewrite X by auto; ring].
Qed.
Lemma columnRef_spec i ns s t E : (i < npc tab)%nat -> isPhase tab i = true -> (ns < nSol s i)%nat -> 0 < solC s i ns -> leaves s t i ns ->
  let E' := columnRef tab pureS mixS i ns s E in
  E' = 0 \/ E' = E - (phaseContent tab pureS mixS s i ns - phaseContent tab pureS mixS t i ns).
Proof.
  intros Hi Pi Hns P (L1 & L2). cbv zeta. unfold columnRef, phaseContent. destruct (Nat.ltb_spec ns (nSol s i)); [|lia]. cbn [negb].
  destruct (Nat.eqb_spec (na tab i) 1) as [N|N].
  { rewrite L1. replace (solC s i ns * pureS i - MASSIN * pureS i) with (0 + (solC s i ns - MASSIN) * pureS i) by ring. apply took. right; ring. }
  assert (N1 : (1 < na tab i)%nat) by (destruct (na_cases tab Lay i Hi Pi); lia).
  set (m := takenMoles i ns s). set (f := MASSIN / solC s i ns).
  assert (Nf : f <> 0). { unfold f. apply Rgt_not_eq, Rdiv_lt_0_compat; [unfold MASSIN; lra|exact P]. }
  assert (Lt : forall j, (j < na tab i)%nat -> solC t (i+1+j)%nat ns = f * solC s (i+1+j)%nat ns).
  { intros j Hj. rewrite L2 by (try lia; now apply row_in). unfold f. field. lra. }
  assert (Mt : forall j, (j < na tab i)%nat -> m j = solC s (i+1+j)%nat ns - f * solC s (i+1+j)%nat ns).
  { intros j Hj. unfold m, takenMoles, f. field. lra. }
  pose proof (mix_part (na tab i) (fun j => solC s (i+1+j)%nat ns) (mixS i) f (fun m' c => proj1 Mix i Pi _ m' c) m Nf Mt) as X.
  cbv zeta. pose proof (took_loop (na tab i) (fun j => m j * pureS (i+1+j)%nat) E) as T. cbv zeta in T.
  set (E1 := loop (na tab i) _ E) in *. apply (took (sum (na tab i) m * mixS i m)) in T.
  assert (Q : sum (na tab i) (fun j => m j * pureS (i+1+j)%nat) + sum (na tab i) m * mixS i m =
     sum (na tab i) (fun j => solC s (i+1+j)%nat ns * pureS (i+1+j)%nat) + sum (na tab i) (fun j => solC s (i+1+j)%nat ns) * mixS i (fun j => solC s (i+1+j)%nat ns)
     - (sum (na tab i) (fun j => solC t (i+1+j)%nat ns * pureS (i+1+j)%nat) + sum (na tab i) (fun j => solC t (i+1+j)%nat ns) * mixS i (fun j => solC t (i+1+j)%nat ns))).
  { rewrite X. rewrite (sum_ext (na tab i) (fun j => solC t (i+1+j)%nat ns) (fun j => f * solC s (i+1+j)%nat ns)) by auto.
    rewrite (proj1 Mix i Pi (fun j => solC s (i+1+j)%nat ns) (fun j => solC t (i+1+j)%nat ns) f Nf Lt).
    rewrite (proj1 Mix i Pi (fun j => solC s (i+1+j)%nat ns) (fun j => f * solC s (i+1+j)%nat ns) f Nf) by reflexivity.
    assert (S1 : sum (na tab i) (fun j => m j * pureS (i+1+j)%nat) = sum (na tab i) (fun j => solC s (i+1+j)%nat ns * pureS (i+1+j)%nat) - sum (na tab i) (fun j => solC t (i+1+j)%nat ns * pureS (i+1+j)%nat)).
    { rewrite <- sum_minus. apply sum_ext. intros j Hj. rewrite Mt, Lt by auto. ring. }
    rewrite S1. ring. }
  rewrite <- Q. exact T.
Qed.
(** only this column's content changes *)
Lemma content_column g i ns s : (i < npc tab)%nat -> isPhase tab i = true -> (nSol s i <= cols i)%nat -> (ns < nSol s i)%nat ->
  let t := column tab g i ns s in
  content tab pureS pureL mixS mixL t = content tab pureS pureL mixS mixL s - (phaseContent tab pureS mixS s i ns - phaseContent tab pureS mixS t i ns).
Proof.
  intros Hi Pi Hc Hns. cbv zeta. destruct (column_spec (fun _ => 0) g i ns s) as (_ & B & C & D & E & F & _); auto.
  { constructor; reflexivity. }
  set (t := column tab g i ns s) in *. unfold content. rewrite B, C.
  assert (Lq : sum (nLiq s) (liquidContent tab pureL mixL t) = sum (nLiq s) (liquidContent tab pureL mixL s)).
  { apply sum_ext. intros nl _. unfold liquidContent. now rewrite E. }
  rewrite Lq.
  assert (Same : forall i' x, (i' < npc tab)%nat -> isPhase tab i' = true -> i' <> i \/ x <> ns -> phaseContent tab pureS mixS t i' x = phaseContent tab pureS mixS s i' x).
  { intros i' x Hi' Pi' Ne.
    assert (W : forall c, usedRow tab i' c -> solC t c x = solC s c x).
    { intros c Uc. apply F. destruct Ne as [Ne|Ne]; [|now left]. right. intros U. apply Ne. now apply (used_disjoint tab Lay i' i c). }
    unfold phaseContent. destruct (Nat.eqb_spec (na tab i') 1) as [N|N]; [rewrite W by (left; reflexivity); reflexivity|].
    assert (N1 : (1 < na tab i')%nat) by (destruct (na_cases tab Lay i' Hi' Pi'); lia).
    assert (W' : forall j, (j < na tab i')%nat -> solC t (i'+1+j)%nat x = solC s (i'+1+j)%nat x) by (intros j Hj; apply W; right; now apply row_in).
    f_equal; [apply sum_ext; intros j Hj; now rewrite W' by auto|]. f_equal; [now apply sum_ext|].
    apply (proj1 Mix i' Pi' _ _ 1); [lra|]. intros j Hj. rewrite W' by auto. ring. }
  rewrite (sum_at (npc tab) i _ (fun i => if isPhase tab i then sum (nSol s i) (phaseContent tab pureS mixS s i) else 0)); [| |exact Hi].
  - rewrite Pi. rewrite (sum_at (nSol s i) ns (phaseContent tab pureS mixS t i) (phaseContent tab pureS mixS s i)); [ring| |exact Hns].
    intros x Hx Ne. apply Same; auto.
  - intros k Hk Ne. destruct (isPhase tab k) eqn:Pk; [|reflexivity]. apply sum_ext. intros x Hx. apply Same; auto.
Qed.

(** what one column does *)
Definition tidy (s : St) : Prop := counts tab s /\ (forall i, (nSol s i <= cols i)%nat) /\ stocked tab s.
Definition frame (s t : St) : Prop := nSol t = nSol s /\ nLiq t = nLiq s /\ hasLiquid t = hasLiquid s.
Lemma leaves_stocked g i ns s : tidy s -> (i < npc tab)%nat -> isPhase tab i = true -> (ns < nSol s i)%nat -> tidy (column tab g i ns s) /\ frame s (column tab g i ns s).
Proof.
  intros (T1 & T2 & T3) Hi Pi Hns.
  destruct (column_spec (fun _ => 0) g i ns s) as (_ & B & C & D & E & F & K & L); auto; [constructor; reflexivity|].
  set (t := column tab g i ns s) in *. split; [|unfold frame; auto]. split; [|split].
  - destruct T1 as (A1 & A2 & A3). unfold counts. rewrite B. auto.
  - now rewrite B.
  - intros i' x Hi' Pi' Hx. rewrite B in Hx.
    destruct (Nat.eq_dec i' i) as [->|Ne].
    + destruct (Nat.eq_dec x ns) as [->|Nx]; [|rewrite F by auto; now apply T3].
      assert (Q : {g = true /\ solC s i ns < MASSIN} + {g = false \/ MASSIN <= solC s i ns}).
      { destruct g; [|right; now left]. destruct (Rlt_dec (solC s i ns) MASSIN); [left; auto|right; right; lra]. }
      destruct Q as [(Q1 & Q2)|Q]; [rewrite (K Q1 Q2); now apply T3|]. destruct (L Q) as [L1 _]. rewrite L1. unfold MASSIN. lra.
    + rewrite F; [now apply T3|]. right. intros U. apply Ne. apply (used_disjoint tab Lay i' i i'); auto. now left.
Qed.
Notation KeepsUp := (keepsUp tab pureS pureL mixS mixL).
Lemma columnRef_0 i ns s : columnRef tab pureS mixS i ns s 0 = 0.
Proof.
  unfold columnRef. destruct (negb _); [reflexivity|]. assert (T : forall x, take x 0 = 0) by (intros; unfold take; destruct (Req_EM_T 0 0); congruence).
  destruct (Nat.eqb (na tab i) 1); [apply T|]. cbv zeta. match goal with |- take ?x ?y = 0 => replace y with 0; [apply T|] end.
  symmetry. generalize (na tab i). intros n. induction n; [reflexivity|]. rewrite loop_S, IHn. apply T.
Qed.
Lemma liquidRef_0 nl s : liquidRef tab pureL mixL nl s 0 = 0.
Proof.
  unfold liquidRef. cbv zeta. assert (T : forall x, take x 0 = 0) by (intros; unfold take; destruct (Req_EM_T 0 0); congruence).
  match goal with |- take ?x ?y = 0 => replace y with 0; [apply T|] end.
  symmetry. assert (Q : forall n, loop n (fun j E => if Req_EM_T (liqC s nl j) 0 then E else if Req_EM_T (sum (nlc tab) (liqC s nl)) 0 then E else take (takenLiquid tab nl s j * pureL j) E) 0 = 0); [|apply Q].
  intros n. induction n; [reflexivity|]. rewrite loop_S, IHn. destruct (Req_EM_T (liqC s nl n) 0); [reflexivity|]. destruct (Req_EM_T _ 0); [reflexivity|apply T].
Qed.
(** the reference is kept up with, and once unset stays so *)
Definition follows (p p' : St * R) : Prop := KeepsUp p p' /\ (snd p = 0 -> snd p' = 0).
Lemma follows_refl p : follows p p.
Proof. split; [right; reflexivity|auto]. Qed.
Lemma follows_trans p q r : follows p q -> follows q r -> follows p r.
Proof.
  intros (A & A0) (B & B0). split; [|auto]. unfold keepsUp in *. destruct B as [B|B]; [now left|]. destruct A as [A|A]; [left; auto|right; lra].
Qed.
Lemma columnWith_follows g i ns p : tidy (fst p) -> (i < npc tab)%nat -> isPhase tab i = true -> (ns < nSol (fst p) i)%nat ->
  follows p (columnWith tab pureS mixS g i ns p).
Proof.
  destruct p as [s E]. cbn [fst]. intros (T1 & T2 & T3) Hi Pi Hns. split.
  2:{ cbn [columnWith fst snd]. intros ->. destruct (g && _)%bool; [reflexivity|apply columnRef_0]. }
  unfold keepsUp. cbn [columnWith fst snd].
  destruct (column_spec (fun _ => 0) g i ns s) as (_ & B & C & D & LC & F & K & L); auto; [constructor; reflexivity|].
  assert (Q : {g = true /\ solC s i ns < MASSIN} + {g = false \/ MASSIN <= solC s i ns}).
  { destruct g; [|right; now left]. destruct (Rlt_dec (solC s i ns) MASSIN); [left; auto|right; right; lra]. }
  destruct Q as [(Q1 & Q2)|Q].
  { rewrite (K Q1 Q2). rewrite Q1. destruct (Rlt_dec (solC s i ns) MASSIN); [|contradiction]. cbn [andb]. right. reflexivity. }
  assert (G : (g && (if Rlt_dec (solC s i ns) MASSIN then true else false))%bool = false).
  { destruct g; [|reflexivity]. destruct (Rlt_dec (solC s i ns) MASSIN); [|reflexivity]. destruct Q; [discriminate|lra]. }
  rewrite G. rewrite content_column by auto.
  destruct (columnRef_spec i ns s (column tab g i ns s) E Hi Pi Hns ltac:(now apply T3) (L Q)) as [Z|Z]; cbv zeta in Z; rewrite Z; [now left|right; ring].
Qed.
(** ** All solids *)
Lemma columnsWith_spec G g i p : Ledger G -> tidy (fst p) -> (i < npc tab)%nat -> isPhase tab i = true -> forall n, (n <= nSol (fst p) i)%nat ->
  let p' := loop n (columnWith tab pureS mixS g i) p in
  follows p p' /\ tidy (fst p') /\ frame (fst p) (fst p') /\ G (fst p') = G (fst p).
Proof.
  intros LG T Hi Pi. induction n; intros Hn; cbv zeta in *.
  { cbn [loop]. split; [apply follows_refl|]. split; [exact T|]. split; [unfold frame; auto|reflexivity]. }
  destruct (IHn ltac:(lia)) as (A & B & C & D). rewrite loop_S. set (q := loop n _ p) in *.
  assert (Hns : (n < nSol (fst q) i)%nat) by (destruct C as (C1 & _); rewrite C1; lia).
  pose proof (columnWith_follows g i n q B Hi Pi Hns) as A'. destruct (leaves_stocked g i n (fst q) B Hi Pi Hns) as (B' & C').
  assert (Fq : fst (columnWith tab pureS mixS g i n q) = column tab g i n (fst q)) by (destruct q; reflexivity).
  rewrite Fq. split; [now apply (follows_trans _ q)|]. split; [exact B'|]. split.
  { destruct C as (C1 & C2 & C3), C' as (D1 & D2 & D3). unfold frame. repeat split; congruence. }
  rewrite <- D. destruct (column_spec G g i n (fst q) LG Hi Pi ltac:(apply B) Hns) as (Z & _). exact Z.
Qed.
Theorem solidsWith_spec G g part p : Ledger G -> tidy (fst p) ->
  let p' := solidsWith tab pureS mixS g part p in
  follows p p' /\ tidy (fst p') /\ frame (fst p) (fst p') /\ G (fst p') = G (fst p).
Proof.
  intros LG T. unfold solidsWith. cbv zeta. assert (P : forall n, (n <= npc tab)%nat ->
    let p' := loop n (fun i p => if part i then loop (nSol (fst p) i) (columnWith tab pureS mixS g i) p else p) p in
    follows p p' /\ tidy (fst p') /\ frame (fst p) (fst p') /\ G (fst p') = G (fst p)); [|now apply P].
  induction n; intros Hn; cbv zeta in *.
  { cbn [loop]. split; [apply follows_refl|]. split; [exact T|]. split; [unfold frame; auto|reflexivity]. }
  destruct (IHn ltac:(lia)) as (A & B & C & D). rewrite loop_S. set (q := loop n _ p) in *.
  destruct (part n); [|auto].
  destruct (isPhase tab n) eqn:Pn.
  2:{ destruct B as ((B1 & _) & _). rewrite (B1 n Pn). cbn [loop]. destruct (IHn ltac:(lia)) as (_ & B & _). auto. }
  destruct (columnsWith_spec G g n q LG B ltac:(lia) Pn (nSol (fst q) n) (le_n _)) as (A' & B' & C' & D').
  split; [now apply (follows_trans _ q)|]. split; [exact B'|]. split; [|congruence].
  destruct C as (C1 & C2 & C3), C' as (E1 & E2 & E3). unfold frame. repeat split; congruence.
Qed.

(** ** Liquids *)
Definition liquidLeft (s t : St) (nl : nat) : Prop :=
  forall j, (j < nlc tab)%nat -> liqC t nl j = MASSIN * (liqC s nl j / sum (nlc tab) (liqC s nl)).
Lemma liquid_spec G g nl s : Ledger G -> (nl < nLiq s)%nat -> let ref := sum (nlc tab) (liqC s nl) in ref <> 0 ->
  let t := liquid tab g nl s in
  G t = G s /\ nSol t = nSol s /\ nLiq t = nLiq s /\ solC t = solC s /\
  (forall n j, n <> nl -> liqC t n j = liqC s n j) /\
  (g = true -> ref < MASSIN -> t = s) /\ (g = false \/ MASSIN <= ref -> liquidLeft s t nl).
Proof.
  intros LG Hn. cbv zeta. intros R0. destruct g; cbn [liquid].
  { destruct (fracLiquid_spec tab cols G nl s LG Hn) as (A & B & C & D & E & F & K). csp; auto. intros [X|X]; [discriminate|exact (K X)]. }
  set (ref := sum (nlc tab) (liqC s nl)) in *.
  assert (P : forall m, (m <= nlc tab)%nat ->
    let t := loop m (fracLiqComponent tab ref nl) s in
    G t = G s /\ nSol t = nSol s /\ nLiq t = nLiq s /\ solC t = solC s /\
    (forall n j, n <> nl \/ (m <= j)%nat -> liqC t n j = liqC s n j) /\
    (forall j, (j < m)%nat -> liqC t nl j = MASSIN * (liqC s nl j / ref))).
  { induction m; intros Hm; cbv zeta in *.
    - cbn [loop]. csp; auto. intros; lia.
    - destruct (IHm ltac:(lia)) as (A & B & C & D & E & F). rewrite loop_S. set (t := loop m _ s) in *.
      rewrite fracLiqComponent_eq.
      assert (Em : liqC t nl m = liqC s nl m) by (apply E; auto).
      destruct (Req_EM_T (liqC t nl m) 0) as [Z|Z].
      + csp; auto.
        * intros n j Hj. apply E. destruct Hj; auto. right; lia.
        * intros j Hj. destruct (Nat.eq_dec j m) as [->|Ne]; [|apply F; lia].
          rewrite <- Em, Z. field. auto.
      + destruct (Req_EM_T ref 0) as [|_]; [contradiction|].
        destruct (transferL_fields tab nl m (MASSIN * (liqC t nl m / ref)) t) as (T1 & T2 & T3 & T4 & T5 & _).
        rewrite T2, T3, T4, T5.
        rewrite (led_liq tab cols G LG) by (auto; rewrite C; auto).
        csp; auto.
        * intros n j Hj. destruct (Nat.eq_dec n nl) as [->|Nn].
          -- rewrite upd2_col by lia. apply E. right; lia.
          -- rewrite upd2_row by auto. apply E. auto.
        * intros j Hj. destruct (Nat.eq_dec j m) as [->|Ne].
          -- rewrite upd2_eq, Em. reflexivity.
          -- rewrite upd2_col by auto. apply F. lia. }
  destruct (P (nlc tab) (le_n _)) as (A & B & C & D & E & F). csp; auto. intros; discriminate.
Qed.
(** the liquids present hold some moles *)
Definition poured (s : St) : Prop := forall nl, (nl < nLiq s)%nat -> 0 < sum (nlc tab) (liqC s nl).
Lemma liquidRef_spec nl s t E : 0 < sum (nlc tab) (liqC s nl) -> liquidLeft s t nl ->
  let E' := liquidRef tab pureL mixL nl s E in
  E' = 0 \/ E' = E - (liquidContent tab pureL mixL s nl - liquidContent tab pureL mixL t nl).
Proof.
  intros P L. cbv zeta. unfold liquidRef, liquidContent. cbv zeta. set (ref := sum (nlc tab) (liqC s nl)) in *.
  set (m := takenLiquid tab nl s). set (f := MASSIN / ref).
  assert (Nf : f <> 0). { unfold f. apply Rgt_not_eq, Rdiv_lt_0_compat; [unfold MASSIN; lra|exact P]. }
  assert (Lt : forall j, (j < nlc tab)%nat -> liqC t nl j = f * liqC s nl j) by (intros j Hj; rewrite L by auto; unfold f; fold ref; field; lra).
  assert (Mt : forall j, (j < nlc tab)%nat -> m j = liqC s nl j - f * liqC s nl j).
  { intros j Hj. unfold m, takenLiquid. cbv zeta. fold ref. destruct (Req_EM_T (liqC s nl j) 0) as [->|]; [ring|].
    destruct (Req_EM_T ref 0); [lra|]. unfold f. field. lra. }
  set (E1 := loop (nlc tab) _ E).
  assert (T : E1 = 0 \/ E1 = E - sum (nlc tab) (fun j => m j * pureL j)).
  { unfold E1. assert (Q : forall n, (n <= nlc tab)%nat -> let E1 := loop n (fun j E => if Req_EM_T (liqC s nl j) 0 then E else if Req_EM_T ref 0 then E else take (m j * pureL j) E) E in
      E1 = 0 \/ E1 = E - sum n (fun j => m j * pureL j)); [|now apply Q].
    induction n; intros Hn; cbv zeta in *; [right; cbn; ring|]. rewrite loop_S. cbn [sum]. specialize (IHn ltac:(lia)).
    destruct (Req_EM_T (liqC s nl n) 0) as [Z|Z].
    - rewrite (Mt n) by lia. rewrite Z. destruct IHn as [I|I]; rewrite I; [now left|right; ring].
    - destruct (Req_EM_T ref 0); [lra|]. now apply took. }
  clearbody E1. apply (took (sum (nlc tab) m * mixL m)) in T.
  assert (Q : sum (nlc tab) (fun j => m j * pureL j) + sum (nlc tab) m * mixL m =
     sum (nlc tab) (fun j => liqC s nl j * pureL j) + ref * mixL (liqC s nl)
     - (sum (nlc tab) (fun j => liqC t nl j * pureL j) + sum (nlc tab) (liqC t nl) * mixL (liqC t nl))).
  { rewrite (mix_part (nlc tab) (liqC s nl) mixL f (fun m' c => proj2 Mix _ m' c) m Nf Mt). fold ref.
    rewrite (proj2 Mix (liqC s nl) (liqC t nl) f Nf Lt).
    rewrite (proj2 Mix (liqC s nl) (fun j => f * liqC s nl j) f Nf) by reflexivity.
    rewrite (sum_ext (nlc tab) (liqC t nl) (fun j => f * liqC s nl j)) by auto.
    assert (S1 : sum (nlc tab) (fun j => m j * pureL j) = sum (nlc tab) (fun j => liqC s nl j * pureL j) - sum (nlc tab) (fun j => liqC t nl j * pureL j)).
    { rewrite <- sum_minus. apply sum_ext. intros j Hj. rewrite Mt, Lt by auto. ring. }
    rewrite S1. ring. }
  rewrite <- Q. exact T.
Qed.
Lemma liquidWith_spec G g nl p : Ledger G -> poured (fst p) -> (nl < nLiq (fst p))%nat ->
  let p' := liquidWith tab pureL mixL g nl p in
  follows p p' /\ poured (fst p') /\ nLiq (fst p') = nLiq (fst p) /\ nSol (fst p') = nSol (fst p) /\ G (fst p') = G (fst p).
Proof.
  destruct p as [s E]. cbn [fst]. intros LG P Hn. cbn [liquidWith fst]. specialize (P nl Hn) as P0.
  destruct (liquid_spec G g nl s LG Hn ltac:(lra)) as (A & B & C & D & F & K & L). set (t := liquid tab g nl s) in *.
  assert (Q : {g = true /\ sum (nlc tab) (liqC s nl) < MASSIN} + {g = false \/ MASSIN <= sum (nlc tab) (liqC s nl)}).
  { destruct g; [|right; now left]. destruct (Rlt_dec (sum (nlc tab) (liqC s nl)) MASSIN); [left; auto|right; right; lra]. }
  split; [|split; [|auto]].
  - split; [|cbn [snd]; intros ->; destruct (g && _)%bool; [reflexivity|apply liquidRef_0]].
    unfold keepsUp. cbn [fst snd]. destruct Q as [(Q1 & Q2)|Q].
    { rewrite (K Q1 Q2), Q1. destruct (Rlt_dec _ MASSIN); [|contradiction]. cbn [andb]. right; reflexivity. }
    assert (Gd : (g && (if Rlt_dec (sum (nlc tab) (liqC s nl)) MASSIN then true else false))%bool = false).
    { destruct g; [|reflexivity]. destruct (Rlt_dec _ MASSIN); [|reflexivity]. destruct Q; [discriminate|lra]. }
    rewrite Gd.
    assert (Ct : content tab pureS pureL mixS mixL t = content tab pureS pureL mixS mixL s - (liquidContent tab pureL mixL s nl - liquidContent tab pureL mixL t nl)).
    { unfold content. rewrite B, C. rewrite (sum_at (nLiq s) nl (liquidContent tab pureL mixL t) (liquidContent tab pureL mixL s)); auto.
      - rewrite (sum_ext (npc tab) _ (fun i => if isPhase tab i then sum (nSol s i) (phaseContent tab pureS mixS s i) else 0)); [ring|].
        intros i Hi. destruct (isPhase tab i); [|reflexivity]. apply sum_ext. intros ns _. unfold phaseContent. now rewrite D.
      - intros n Hn' Ne. unfold liquidContent. rewrite (sum_ext (nlc tab) (liqC t n) (liqC s n)) by (intros; now apply F).
        rewrite (proj2 Mix (liqC s n) (liqC t n) 1) by (try lra; intros; rewrite F by auto; ring).
        f_equal. apply sum_ext. intros. now rewrite F. }
    rewrite Ct. destruct (liquidRef_spec nl s t E P0 (L Q)) as [Z|Z]; cbv zeta in Z; rewrite Z; [now left|right; ring].
  - intros n Hn'. rewrite C in Hn'. destruct (Nat.eq_dec n nl) as [->|Ne]; [|rewrite (sum_ext (nlc tab) (liqC t n) (liqC s n)) by (intros; now apply F); now apply P].
    destruct Q as [(Q1 & Q2)|Q]; [rewrite (K Q1 Q2); exact P0|].
    rewrite (sum_mul (nlc tab) (liqC t nl) (liqC s nl) (MASSIN / sum (nlc tab) (liqC s nl))) by (intros j Hj; rewrite (L Q) by auto; unfold Rdiv; ring).
    apply Rmult_lt_0_compat; [|exact P0]. apply Rdiv_lt_0_compat; [unfold MASSIN; lra|exact P0].
Qed.
Theorem liquidsWith_spec G g p : Ledger G -> poured (fst p) ->
  let p' := liquidsWith tab pureL mixL g p in
  follows p p' /\ poured (fst p') /\ nLiq (fst p') = nLiq (fst p) /\ nSol (fst p') = nSol (fst p) /\ G (fst p') = G (fst p).
Proof.
  intros LG P. unfold liquidsWith. cbv zeta. assert (Q : forall n, (n <= nLiq (fst p))%nat -> let p' := loop n (liquidWith tab pureL mixL g) p in
    follows p p' /\ poured (fst p') /\ nLiq (fst p') = nLiq (fst p) /\ nSol (fst p') = nSol (fst p) /\ G (fst p') = G (fst p)); [|now apply Q].
  induction n; intros Hn; cbv zeta in *.
  { cbn [loop]. split; [apply follows_refl|auto]. }
  destruct (IHn ltac:(lia)) as (A & B & C & D & E). rewrite loop_S. set (q := loop n _ p) in *.
  destruct (liquidWith_spec G g n q LG B ltac:(rewrite C; lia)) as (A' & B' & C' & D' & E').
  split; [now apply (follows_trans _ q)|]. split; [exact B'|]. split; [congruence|]. split; congruence.
Qed.

(** ** Both programs agree when no phase is below the residual amount *)
Definition ample (s : St) : Prop := forall i ns, (i < npc tab)%nat -> isPhase tab i = true -> (ns < nSol s i)%nat -> MASSIN <= solC s i ns.
Definition ampleLiquids (s : St) : Prop := forall nl, (nl < nLiq s)%nat -> MASSIN <= sum (nlc tab) (liqC s nl).
Lemma ample_stocked s : ample s -> stocked tab s.
Proof. intros A i ns Hi Pi Hn. specialize (A i ns Hi Pi Hn). unfold MASSIN in A. lra. Qed.
Lemma column_ample g i ns s : tidy s -> ample s -> (i < npc tab)%nat -> isPhase tab i = true -> (ns < nSol s i)%nat -> ample (column tab g i ns s).
Proof.
  intros (T1 & T2 & T3) A Hi Pi Hns i' x Hi' Pi' Hx.
  destruct (column_spec (fun _ => 0) g i ns s) as (_ & B & C & D & E & F & K & L); auto; [constructor; reflexivity|].
  rewrite B in Hx. destruct (Nat.eq_dec i' i) as [->|Ne].
  - destruct (Nat.eq_dec x ns) as [->|Nx]; [|rewrite F by auto; now apply A].
    destruct (L ltac:(right; now apply A)) as [L1 _]. rewrite L1. lra.
  - rewrite F; [now apply A|]. right. intros U. apply Ne. apply (used_disjoint tab Lay i' i i'); auto. now left.
Qed.
Lemma columnWith_alike i ns p : ample (fst p) -> (i < npc tab)%nat -> isPhase tab i = true -> (ns < nSol (fst p) i)%nat ->
  columnWith tab pureS mixS true i ns p = columnWith tab pureS mixS false i ns p.
Proof.
  destruct p as [s E]. cbn [fst]. intros A Hi Pi Hn. unfold columnWith. cbn [column andb]. rewrite libColumn_graphical by auto.
  destruct (Rlt_dec (solC s i ns) MASSIN) as [L|]; [|reflexivity]. specialize (A i ns Hi Pi Hn). lra.
Qed.
Theorem solids_alike part p : tidy (fst p) -> ample (fst p) -> solidsWith tab pureS mixS true part p = solidsWith tab pureS mixS false part p.
Proof.
  intros T A. unfold solidsWith.
  assert (P : forall n, (n <= npc tab)%nat ->
    let f g := loop n (fun i p => if part i then loop (nSol (fst p) i) (columnWith tab pureS mixS g i) p else p) p in
    f true = f false /\ tidy (fst (f false)) /\ ample (fst (f false))); [|now apply P].
  induction n; intros Hn; cbv beta zeta in *; [cbn [loop]; auto|]. destruct (IHn ltac:(lia)) as (I1 & I2 & I3). rewrite !loop_S, I1. clear I1. match goal with I2 : tidy (fst ?x) |- _ => set (q := x) in * end.
  destruct (part n); [|auto]. destruct (isPhase tab n) eqn:Pn.
  2:{ destruct I2 as ((B1 & _) & _). rewrite (B1 n Pn). cbn [loop]. destruct (IHn ltac:(lia)) as (_ & I2 & _). auto. }
  assert (Q : forall m, (m <= nSol (fst q) n)%nat -> let f g := loop m (columnWith tab pureS mixS g n) q in
    f true = f false /\ tidy (fst (f false)) /\ ample (fst (f false)) /\ nSol (fst (f false)) = nSol (fst q)).
  { induction m as [|m IHm]; intros Hm; cbv beta zeta in *; [cbn [loop]; auto|]. destruct (IHm ltac:(lia)) as (J1 & J2 & J3 & J4). rewrite !loop_S, J1. clear J1. match goal with J2 : tidy (fst ?x) |- _ => set (r := x) in * end.
    assert (Hns : (m < nSol (fst r) n)%nat) by (rewrite J4; lia).
    rewrite columnWith_alike by (auto; lia). assert (Fr : fst (columnWith tab pureS mixS false n m r) = column tab false n m (fst r)) by (destruct r; reflexivity).
    rewrite Fr. destruct (leaves_stocked false n m (fst r) J2 ltac:(lia) Pn Hns) as (K1 & K2 & _).
    split; [reflexivity|]. split; [exact K1|]. split; [apply column_ample; auto; lia|congruence]. }
  destruct (Q _ (le_n _)) as (J1 & J2 & J3 & _). auto.
Qed.
Theorem liquids_alike p : ampleLiquids (fst p) -> liquidsWith tab pureL mixL true p = liquidsWith tab pureL mixL false p.
Proof.
  intros A. unfold liquidsWith.
  assert (Q : forall n, (n <= nLiq (fst p))%nat -> let f g := loop n (liquidWith tab pureL mixL g) p in
    f true = f false /\ ampleLiquids (fst (f false)) /\ nLiq (fst (f false)) = nLiq (fst p)); [|now apply Q].
  induction n; intros Hn; cbv beta zeta in *; [cbn [loop]; auto|]. destruct (IHn ltac:(lia)) as (I1 & I2 & I3). rewrite !loop_S, I1. clear I1. match goal with I2 : ampleLiquids (fst ?x) |- _ => set (q := x) in * end.
  assert (Hq : (n < nLiq (fst q))%nat) by (rewrite I3; lia). pose proof (I2 n Hq) as M0.
  assert (Al : liquidWith tab pureL mixL true n q = liquidWith tab pureL mixL false n q).
  { destruct q as [s E]. cbn [fst] in *. unfold liquidWith. cbn [liquid andb]. unfold fracLiquid. destruct (Rlt_dec _ MASSIN); [lra|reflexivity]. }
  split; [exact Al|].
  destruct (liquid_spec (fun _ => 0) false n (fst q)) as (_ & B & C & D & F & _ & L); auto; [constructor; reflexivity|unfold MASSIN in M0; lra|].
  assert (Fq : fst (liquidWith tab pureL mixL false n q) = liquid tab false n (fst q)) by (destruct q; reflexivity). rewrite Fq. split; [|congruence].
  intros m Hm. rewrite C in Hm. destruct (Nat.eq_dec m n) as [->|Ne].
  - rewrite (sum_mul (nlc tab) _ (liqC (fst q) n) (MASSIN / sum (nlc tab) (liqC (fst q) n))) by (intros j Hj; rewrite (L (or_introl eq_refl)) by auto; unfold Rdiv; ring).
    right. field. unfold MASSIN in M0. lra.
  - rewrite (sum_ext (nlc tab) _ (liqC (fst q) m)) by (intros; now apply F). now apply I2.
Qed.

(** ** The store of the graphical program never loses a mole of a phase *)
Definition storeGrows (s t : St) : Prop := forall i ns, (i < npc tab)%nat -> isPhase tab i = true -> fracS s i ns <= fracS t i ns.
Lemma column_grows i ns s : (i < npc tab)%nat -> isPhase tab i = true -> storeGrows s (fracColumn tab i ns s).
Proof.
  intros Hi Pi i' x Hi' Pi'. destruct (Nat.ltb_spec ns (nSol s i)) as [Hns|Hns].
  2:{ unfold fracColumn. destruct (Nat.ltb_spec ns (nSol s i)); [lia|]. cbn [negb]. lra. }
  destruct (Rlt_dec (solC s i ns) MASSIN) as [L|L].
  { unfold fracColumn. destruct (Nat.ltb_spec ns (nSol s i)); [|lia]. cbn [negb]. destruct (Rlt_dec (solC s i ns) MASSIN); [lra|contradiction]. }
  assert (U : fracS s i' x <= upd2 (fracS s) i ns (fracS s i ns + (solC s i ns - MASSIN)) i' x).
  { destruct (Nat.eq_dec i' i) as [->|Ne]; [|rewrite upd2_row by auto; lra]. destruct (Nat.eq_dec x ns) as [->|Nx]; [rewrite upd2_eq; lra|rewrite upd2_col by auto; lra]. }
  destruct (na_cases tab Lay i Hi Pi) as [N|N].
  - rewrite fracColumn_pure by auto. destruct (transfer_fields tab i ns MASSIN s) as (_ & _ & _ & _ & _ & _ & FS & _). rewrite FS. exact U.
  - rewrite fracColumn_solution by auto. cbn [fracS setSol setSolC]. set (s1 := setFracS _ s).
    assert (P : forall m, (m <= na tab i)%nat -> fracS (loop m (frStep tab i ns) s1) i' x = fracS s1 i' x).
    { induction m; intros Hm; [reflexivity|]. rewrite loop_S. unfold frStep at 1.
      match goal with |- fracS (transfer tab ?c ns ?v ?t) i' x = _ => destruct (transfer_fields tab c ns v t) as (_ & _ & _ & _ & _ & _ & FS & _) end.
      rewrite FS, upd2_row; [apply IHm; lia|]. intros Eq. destruct (Lay i Hi Pi) as [_ B]. destruct (B N) as [_ C]. specialize (C (1+m)%nat ltac:(lia)).
      replace (i + (1 + m))%nat with i' in C by lia. congruence. }
    rewrite P by lia. exact U.
Qed.
Theorem graphical_grows part s : counts tab s -> (forall i, (nSol s i <= cols i)%nat) -> storeGrows s (fracSolids tab part s).
Proof.
  intros T1 T2. unfold fracSolids. intros i' x Hi' Pi'.
  assert (P : forall n, (n <= npc tab)%nat -> let t := loop n (fun i s => if part i then loop (nSol s i) (fracColumn tab i) s else s) s in
    fracS s i' x <= fracS t i' x /\ nSol t = nSol s); [|now apply P].
  induction n; intros Hn; cbv zeta in *; [cbn [loop]; split; [lra|reflexivity]|]. destruct (IHn ltac:(lia)) as (I1 & I2). rewrite loop_S. set (t := loop n _ s) in *.
  destruct (part n); [|auto]. destruct (isPhase tab n) eqn:Pn.
  2:{ rewrite I2. destruct T1 as (B1 & _). rewrite (B1 n Pn). cbn [loop]. auto. }
  assert (Q : forall m, (m <= nSol t n)%nat -> let u := loop m (fracColumn tab n) t in fracS s i' x <= fracS u i' x /\ nSol u = nSol s).
  { induction m; intros Hm; cbv zeta in *; [cbn [loop]; auto|]. destruct (IHm ltac:(lia)) as (J1 & J2). rewrite loop_S. set (u := loop m _ t) in *.
    pose proof (column_grows n m u ltac:(lia) Pn i' x Hi' Pi').
    destruct (column_spec (fun _ => 0) true n m u) as (_ & B & _); auto; [constructor; reflexivity|rewrite J2; auto|rewrite J2, <- I2; lia|].
    cbn [column] in B. split; [lra|congruence]. }
  now apply Q.
Qed.
End P.

(** ** The theorems *)
Lemma solids_matter tab pureS mixS pureS' mixS' g part p p' : fst p = fst p' ->
  fst (solidsWith tab pureS mixS g part p) = fst (solidsWith tab pureS' mixS' g part p').
Proof.
  intros E. unfold solidsWith. generalize (npc tab). intros n. induction n; [exact E|]. rewrite !loop_S.
  set (q := loop n _ p) in *. set (q' := loop n _ p') in *. destruct (part n); [|exact IHn]. rewrite <- IHn. generalize (nSol (fst q) n). intros m.
  induction m; [exact IHn|]. rewrite !loop_S. set (u := loop m _ q) in *. set (u' := loop m _ q') in *. clearbody u u'. destruct u, u'. cbn in *. now subst.
Qed.
Lemma liquids_matter tab pureL mixL pureL' mixL' g p p' : fst p = fst p' ->
  fst (liquidsWith tab pureL mixL g p) = fst (liquidsWith tab pureL' mixL' g p').
Proof.
  intros E. unfold liquidsWith. rewrite <- E. generalize (nLiq (fst p)). intros n. induction n; [exact E|]. rewrite !loop_S.
  set (u := loop n _ p) in *. set (u' := loop n _ p') in *. clearbody u u'. destruct u, u'. cbn in *. now subst.
Qed.
Lemma intensive_0 tab : intensive tab (fun _ _ => 0) (fun _ => 0).
Proof. split; reflexivity. Qed.
Lemma ledger_fo2 tab cols : Ledger tab cols (fun s => if fo2On s then 1 else 0).
Proof.
  constructor; intros; try reflexivity.
  - destruct (transfer_fields tab c ns v s) as (_ & _ & _ & _ & _ & _ & _ & _ & _ & _ & F). now rewrite F.
  - destruct (transferL_fields tab nl j v s) as (_ & _ & _ & _ & _ & _ & _ & _ & _ & _ & F). now rewrite F.
Qed.
Lemma moved_by_ledgers tab cols s t : layout tab -> (forall G, Ledger tab cols G -> G t = G s) -> moved tab cols s t.
Proof.
  intros Lay H. split; [|split; [|split]].
  - intros q. exact (H _ (ledger_matter tab Lay cols q)).
  - intros o Ho. exact (H _ (ledger_bulk tab Lay cols o Ho)).
  - pose proof (H _ (ledger_mass tab Lay cols)) as X. cbv beta in X. lra.
  - intros F. pose proof (H _ (ledger_fo2 tab cols)) as Y. cbv beta in Y. rewrite F in Y. pose proof (H _ (ledger_oxygen tab Lay cols)) as X. cbv beta in X. rewrite F in X.
    destruct (fo2On t); [lra|lra].
Qed.

(** what a program starts from: tables, counts and store sizes fit, every solid and liquid present holds some moles *)
Definition fit (tab : Tab) (cols : nat -> nat) (s : St) : Prop :=
  counts tab s /\ (forall i, (nSol s i <= cols i)%nat) /\ stocked tab s /\
  (forall nl, (nl < nLiq s)%nat -> 0 < sum (nlc tab) (liqC s nl)).

(** C215: solids, in either program *)
Theorem C215_solids : forall tab cols pureS mixS g part p, layout tab -> fit tab cols (fst p) ->
  let t := fst (solidsWith tab pureS mixS g part p) in
  moved tab cols (fst p) t /\ nSol t = nSol (fst p) /\ nLiq t = nLiq (fst p) /\ hasLiquid t = hasLiquid (fst p).
Proof.
  intros tab cols pureS mixS g part p Lay (F1 & F2 & F3 & F4). cbv zeta.
  rewrite (solids_matter tab pureS mixS (fun _ => 0) (fun _ _ => 0) g part p p eq_refl).
  assert (S : forall G, Ledger tab cols G -> _) by (intros G LG; exact (solidsWith_spec tab Lay cols (fun _ => 0) (fun _ => 0) (fun _ _ => 0) (fun _ => 0) (intensive_0 tab) G g part p LG (conj F1 (conj F2 F3)))).
  cbv zeta in S. split; [apply moved_by_ledgers; [exact Lay|]; intros G LG; apply (S G LG)|].
  destruct (S _ (ledger_fo2 tab cols)) as (_ & _ & (A & B & C) & _). auto.
Qed.
(** liquids, in either program *)
Theorem C215_liquids : forall tab cols pureL mixL g p, layout tab -> fit tab cols (fst p) ->
  let t := fst (liquidsWith tab pureL mixL g p) in
  moved tab cols (fst p) t /\ nSol t = nSol (fst p) /\ nLiq t = nLiq (fst p).
Proof.
  intros tab cols pureL mixL g p Lay (F1 & F2 & F3 & F4). cbv zeta.
  rewrite (liquids_matter tab pureL mixL (fun _ => 0) (fun _ => 0) g p p eq_refl).
  assert (S : forall G, Ledger tab cols G -> _) by (intros G LG; exact (liquidsWith_spec tab cols (fun _ => 0) (fun _ => 0) (fun _ _ => 0) (fun _ => 0) (intensive_0 tab) G g p LG F4)).
  cbv zeta in S. split; [apply moved_by_ledgers; [exact Lay|]; intros G LG; apply (S G LG)|].
  destruct (S _ (ledger_fo2 tab cols)) as (_ & _ & A & B & _). auto.
Qed.
(** a balanced system stays balanced *)
Theorem C215_balanced : forall tab cols pureS pureL mixS mixL g part p, layout tab -> fit tab cols (fst p) -> balanced tab (fst p) ->
  balanced tab (fst (solidsWith tab pureS mixS g part p)) /\ balanced tab (fst (liquidsWith tab pureL mixL g p)).
Proof.
  intros tab cols pureS pureL mixS mixL g part p Lay F B. split; intros o Ho.
  - destruct (C215_solids tab cols pureS mixS g part p Lay F) as ((M1 & M2 & _) & _). specialize (M1 (oxide tab o)). specialize (M2 o Ho). specialize (B o Ho). lra.
  - destruct (C215_liquids tab cols pureL mixL g p Lay F) as ((M1 & M2 & _) & _). specialize (M1 (oxide tab o)). specialize (M2 o Ho). specialize (B o Ho). lra.
Qed.

(** C216: the graphical program only ever adds to the store; the shared library can take from it *)
Theorem C216_graphical : forall tab cols pureS mixS part p, layout tab -> counts tab (fst p) -> (forall i, (nSol (fst p) i <= cols i)%nat) ->
  storeGrows tab (fst p) (fst (solidsWith tab pureS mixS true part p)).
Proof.
  intros tab cols pureS mixS part p Lay F1 F2.
  assert (E : fst (solidsWith tab pureS mixS true part p) = fracSolids tab part (fst p)).
  { unfold solidsWith, fracSolids. generalize (npc tab). intros n. induction n; [reflexivity|]. rewrite !loop_S, <- IHn. set (q := loop n _ p). destruct (part n); [|reflexivity].
    generalize (nSol (fst q) n). intros m. induction m; [reflexivity|]. rewrite !loop_S, <- IHm. now destruct (loop m (columnWith tab pureS mixS true n) q). }
  rewrite E. now apply (graphical_grows tab Lay cols).
Qed.
(** one pure phase of one oxide, half the residual amount of it *)
Definition tinyTab : Tab :=
  mkTab 1 1 1 (fun _ => true) (fun _ => 1%nat) (fun _ _ => 1) (fun _ _ => 1) (fun _ _ => 1) (fun _ _ => 1) (fun _ => 1) (fun _ => 1) (fun _ => 0) (fun _ => 0) (fun _ => false).
Definition tinySt : St :=
  mkSt true 1 (fun _ _ => 1) (fun i => if Nat.eqb i 0 then 1%nat else 0%nat) (fun _ _ => MASSIN / 2) (fun _ => 1 + MASSIN / 2) (fun _ _ => 0) (fun _ => 0) 0 0 false.
Theorem C216_refuted : layout tinyTab /\ fit tinyTab (nSol tinySt) tinySt /\ balanced tinyTab tinySt /\
  forall pureS mixS E, let t := fst (solidsWith tinyTab pureS mixS false (fun _ => true) (tinySt, E)) in
  solC t 0%nat 0%nat = MASSIN /\ fracS t 0%nat 0%nat = - (MASSIN / 2) /\ fracMass t = - (MASSIN / 2) /\ bulk t 0%nat = bulk tinySt 0%nat + MASSIN / 2.
Proof.
  split; [|split; [|split]].
  - intros i Hi _. cbn in *. split; [lia|]. intros; lia.
  - split; [|split; [|split]].
    + split; [|split]; [discriminate|..]; intros i H; cbn in *; destruct (Nat.eqb_spec i 0); lia.
    + intros; lia.
    + intros i ns _ _ _. cbn. unfold MASSIN. lra.
    + intros nl _. cbn. lra.
  - intros o Ho. cbn in Ho. assert (o = 0%nat) by lia. subst. unfold amount, inSolids, inLiquids, solidAmount, inLiquid. cbn. field.
  - intros pureS mixS E. cbn. unfold upd2, setBulk, addBulk. cbn. unfold MASSIN. repeat split; lra.
Qed.

(** C217: the reference keeps up with the phases *)
Theorem C217_solids : forall tab cols pureS pureL mixS mixL g part p, layout tab -> intensive tab mixS mixL -> fit tab cols (fst p) ->
  keepsUp tab pureS pureL mixS mixL p (solidsWith tab pureS mixS g part p).
Proof.
  intros tab cols pureS pureL mixS mixL g part p Lay Mix (F1 & F2 & F3 & F4).
  destruct (solidsWith_spec tab Lay cols pureS pureL mixS mixL Mix _ g part p (ledger_fo2 tab cols) (conj F1 (conj F2 F3))) as ((A & _) & _). exact A.
Qed.
Theorem C217_liquids : forall tab cols pureS pureL mixS mixL g p, intensive tab mixS mixL -> fit tab cols (fst p) ->
  keepsUp tab pureS pureL mixS mixL p (liquidsWith tab pureL mixL g p).
Proof.
  intros tab cols pureS pureL mixS mixL g p Mix (F1 & F2 & F3 & F4).
  destruct (liquidsWith_spec tab cols pureS pureL mixS mixL Mix _ g p (ledger_fo2 tab cols) F4) as ((A & _) & _). exact A.
Qed.

(** C218: with no phase below the residual amount the two programs do the same *)
Theorem C218_solids : forall tab cols pureS mixS part p, layout tab -> fit tab cols (fst p) -> ample tab (fst p) ->
  solidsWith tab pureS mixS true part p = solidsWith tab pureS mixS false part p.
Proof. intros tab cols pureS mixS part p Lay (F1 & F2 & F3 & _) A. exact (solids_alike tab Lay cols pureS mixS part p (conj F1 (conj F2 F3)) A). Qed.
Theorem C218_liquids : forall tab pureL mixL p, ampleLiquids tab (fst p) -> liquidsWith tab pureL mixL true p = liquidsWith tab pureL mixL false p.
Proof. intros tab pureL mixL p A. exact (liquids_alike tab (fun _ => O) pureL mixL p A). Qed.

(** a case meeting the hypotheses: two moles of a solution of two end members and a liquid, mixing a regular solution *)
Definition duoTab : Tab :=
  mkTab 2 3 2 (fun i => Nat.eqb i 0) (fun i => if Nat.eqb i 0 then 2%nat else 1%nat)
    (fun c k => if Nat.eqb c (S k) then 1 else 0) (fun c o => if Nat.eqb c (S o) then 1 else 0)
    (fun j o => if Nat.eqb j o then 1 else 0) (fun o j => if Nat.eqb o j then 1 else 0) (fun _ => 60) (fun _ => 60) (fun _ => 0) (fun _ => 0) (fun _ => false).
Definition duoSt : St :=
  mkSt true 1 (fun _ j => 1) (fun i => if Nat.eqb i 0 then 1%nat else 0%nat)
    (fun c _ => if Nat.eqb c 0 then 2 else if Nat.eqb c 1 then 1/2 else 3/2)
    (fun o => if Nat.eqb o 0 then 3/2 else 5/2) (fun _ _ => 0) (fun _ => 0) 0 0 false.
Definition regular (m : nat -> R) : R := 8000 * (m 0%nat * m 1%nat) / (m 0%nat + m 1%nat)^2.
Theorem C217_case : layout duoTab /\ intensive duoTab (fun _ => regular) regular /\ fit duoTab (nSol duoSt) duoSt /\
  ample duoTab duoSt /\ ampleLiquids duoTab duoSt /\ balanced duoTab duoSt /\
  forall E, let t := fst (solidsWith duoTab (fun _ => -1000) (fun _ => regular) false (fun _ => true) (duoSt, E)) in
  solC t 0%nat 0%nat = MASSIN /\ solC t 1%nat 0%nat = MASSIN / 4 /\ solC t 2%nat 0%nat = 3 * MASSIN / 4.
Proof.
  assert (Hom : forall m m' c, c <> 0 -> (forall j, (j < 2)%nat -> m' j = c * m j) -> regular m' = regular m).
  { intros m m' c Hc H. unfold regular. rewrite !H by lia. destruct (Req_EM_T (m 0%nat + m 1%nat) 0) as [Z|Z].
    - replace (c * m 0%nat + c * m 1%nat) with 0 by (rewrite <- Rmult_plus_distr_l, Z; ring). rewrite Z.
      replace (0 ^ 2) with 0 by ring. unfold Rdiv. rewrite Rinv_0. ring.
    - field. split; [exact Z|]. rewrite <- Rmult_plus_distr_l. now apply Rmult_integral_contrapositive_currified. }
  split; [|split; [|split; [|split; [|split; [|split]]]]].
  - intros i Hi Pi. cbn in Pi. destruct (Nat.eqb_spec i 0) as [->|]; [|discriminate]. cbn. split; [lia|]. intros _. split; [lia|].
    intros j Hj. destruct j; [lia|reflexivity].
  - split; [|exact Hom]. intros i Pi m m' c Hc H. cbn in Pi. destruct (Nat.eqb_spec i 0) as [Ei|]; [|discriminate]. rewrite Ei in H. exact (Hom m m' c Hc H).
  - split; [|split; [|split]].
    + split; [|split]; intros i H; cbn in *; destruct (Nat.eqb_spec i 0); try lia; try discriminate.
    + intros; lia.
    + intros i ns Hi Pi Hn. cbn in *. destruct (Nat.eqb_spec i 0); [subst i; cbn; lra|discriminate].
    + intros nl Hn. cbn. lra.
  - intros i ns Hi Pi Hn. cbn in *. destruct (Nat.eqb_spec i 0); [subst i; cbn; unfold MASSIN; lra|discriminate].
  - intros nl Hn. cbn. unfold MASSIN. lra.
  - intros o Ho. cbn in Ho. destruct o as [|[|]]; [| |lia]; unfold amount, inSolids, inLiquids, inLiquid, solidAmount; cbn; lra.
  - intros E. cbn. unfold upd2, setSol, setSolC, addBulk, setBulk, setFracMass, setFracS. cbn. unfold upd2. cbn. repeat split; field.
Qed.
