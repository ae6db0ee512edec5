(** C200-C202: the saturation test in a system without liquid. *)
From Coq Require Import Reals QArith Qcanon Qreals String Bool Arith ZArith Lia Lra.
From Verif Require Import MassModel MassSpec MassProofs InitModel InitProofs InitProps InitCert Tables QryLiquid SubModel SubSpec SubProofs SatModel SatProps AbsModel AbsSpec.
From Coq Require Import List. Import ListNotations.
Local Open Scope R_scope.

Lemma sum_nonzero n f : sum n f <> 0 -> exists i, (i < n)%nat /\ f i <> 0.
Proof.
  induction n as [|n IH]; intros H; cbn [sum] in H; [lra|]. destruct (Req_EM_T (f n) 0) as [Z|Z].
  - destruct IH as (i & L & N); [lra|]. exists i. split; [lia|exact N].
  - exists n. split; [lia|exact Z].
Qed.
Lemma packed (ok : nat -> bool) (g X : nat -> R) n :
  sum n (fun k => g k * (if ok k then X (length (filter ok (seq 0 k))) else 0)) =
  sum (length (filter ok (seq 0 n))) (fun l => g (nth l (filter ok (seq 0 n)) 0%nat) * X l).
Proof.
  induction n as [|n IH]; [reflexivity|]. rewrite seq_S, filter_app. cbn [sum plus filter]. rewrite IH. destruct (ok n).
  - rewrite app_length. cbn [length]. rewrite Nat.add_1_r. cbn [sum]. rewrite app_nth2, Nat.sub_diag by lia. cbn [nth]. f_equal.
    apply sum_ext. intros l Hl. now rewrite app_nth1 by exact Hl.
  - rewrite app_nil_r. ring.
Qed.

Section Real.
Variables (m : Mode) (t : Tab).
Hypotheses (Hm : In m modes) (It : initialised m t).
Lemma sol_through_liq c o : (c < npc t)%nat -> (o < nc t)%nat -> sum (nlc t) (fun k => solToLiq t c k * liqToOx t k o) = solToOx t c o.
Proof.
  intros Hc Ho. destruct (C46_elements m t Hm It) as (A & B & C & _).
  enough (sum (nlc t) (fun k => solToLiq t c k * liqToOx t k o) - solToOx t c o = 0) by lra.
  destruct (checked m Hm) as [ce Ch]. destruct (ch_split m t It ce Ch) as ((En & El) & (RO & RL) & _).
  rewrite En in *.
  apply (independent nOx oxE _ (rightInverse_ok nOx Om (certM nOx cert_bulk) RO) (fun o => sum (nlc t) (fun k => solToLiq t c k * liqToOx t k o) - solToOx t c o)); [|exact Ho].
  intros z Hz. rewrite (sum_ext nOx _ (fun o => sum (nlc t) (fun k => solToLiq t c k * (liqToOx t k o * atoms (oxideFormula o) z)) + - (solToOx t c o * atoms (oxideFormula o) z))).
  2:{ intros i Hi. rewrite <- oxE_atoms by (change nOx with (length tbl_bulk) in Hi; lia). rewrite Rmult_minus_distr_r, <- sum_scal_r. unfold Rminus. f_equal. apply sum_ext. intros; ring. }
  rewrite sum_plus, sum_opp, sum_swap.
  rewrite (sum_ext (nlc t) _ (fun k => solToLiq t c k * atoms (liquidFormula m k) z)).
  2:{ intros k Hk. rewrite sum_scal. f_equal. symmetry. exact (C k Hk z Hz). }
  rewrite <- (A c Hc z Hz), <- (B c Hc z Hz). ring.
Qed.
(** what is made of the same oxides is made of the same components *)
Lemma same_components n (q : nat -> R) (cs : nat -> nat) c : (c < npc t)%nat -> (forall r, (r < n)%nat -> (cs r < npc t)%nat) ->
  (forall o, (o < nc t)%nat -> solToOx t c o = sum n (fun r => q r * solToOx t (cs r) o)) ->
  forall k, (k < nlc t)%nat -> solToLiq t c k = sum n (fun r => q r * solToLiq t (cs r) k).
Proof.
  intros Hc Hr E k Hk. destruct (C46_elements m t Hm It) as (A & B & _).
  enough (solToLiq t c k - sum n (fun r => q r * solToLiq t (cs r) k) = 0) by lra.
  apply (liq_independent m t (fun k => solToLiq t c k - sum n (fun r => q r * solToLiq t (cs r) k)) Hm It); [|exact Hk]. intros z Hz.
  rewrite (sum_ext (nlc t) _ (fun k => solToLiq t c k * atoms (liquidFormula m k) z + - sum n (fun r => q r * (solToLiq t (cs r) k * atoms (liquidFormula m k) z)))).
  2:{ intros i Hi. rewrite Rmult_minus_distr_r, <- sum_scal_r. unfold Rminus. do 2 f_equal. apply sum_ext. intros; ring. }
  rewrite sum_plus, sum_opp, sum_swap. rewrite <- (B c Hc z Hz), (A c Hc z Hz).
  rewrite (sum_ext n _ (fun r => sum (nc t) (fun o => q r * solToOx t (cs r) o * atoms (oxideFormula o) z))).
  2:{ intros r Lr. rewrite sum_scal, <- (B _ (Hr r Lr) z Hz), (A _ (Hr r Lr) z Hz), <- sum_scal. apply sum_ext. intros; ring. }
  rewrite sum_swap. rewrite (sum_ext (nc t) _ (fun o => sum n (fun r => q r * solToOx t (cs r) o) * atoms (oxideFormula o) z)).
  - rewrite (sum_ext (nc t) (fun o => sum n (fun r => q r * solToOx t (cs r) o * atoms (oxideFormula o) z)) (fun o => sum n (fun r => q r * solToOx t (cs r) o) * atoms (oxideFormula o) z)); [ring|].
    intros o Ho. now rewrite sum_scal_r.
  - intros o Ho. rewrite (E o Ho). reflexivity.
Qed.
End Real.

Section Absent.
Variables (m : Mode) (t : Tab).
Hypotheses (Hm : In m modes) (It : initialised m t).
Variables (bulk : nat -> R) (nSolid : nat -> nat) (solComp : nat -> R) (gSol : nat -> R) (mixing : nat -> (nat -> R) -> nat -> R).
Notation present := (AbsSpec.present t nSolid solComp).
Notation rows := (AbsModel.rows t nSolid solComp).
Notation columns := (AbsModel.columns t bulk).
Notation matrix := (AbsModel.matrix t bulk nSolid solComp).
Lemma isZero_iff x : isZero x = true <-> x = 0.
Proof. unfold isZero. destruct (Req_EM_T x 0); split; congruence. Qed.
Lemma in_rows ph c : In (ph, c) rows <-> present ph c.
Proof.
  unfold AbsModel.rows. rewrite in_flat_map. unfold AbsSpec.present. split.
  - intros (i & Hi & H). apply in_seq in Hi. unfold rowsOf in H. destruct (isPhase t i) eqn:P; [|destruct H]. destruct (Nat.eqb_spec (nSolid i) 0) as [|N]; [destruct H|]. cbn [andb negb] in H.
    destruct (Nat.eqb_spec (na t i) 1) as [N1|N1].
    + destruct H as [H|[]]. injection H as <- <-. repeat split; auto; lia.
    + apply in_map_iff in H. destruct H as (c' & E & H). injection E as <- <-. apply filter_In in H. destruct H as [H Z]. apply in_map_iff in H. destruct H as (k & <- & K). apply in_seq in K.
      repeat split; auto; try lia. right. split; [exact N1|]. exists k. split; [lia|]. split; [reflexivity|]. intros E. apply isZero_iff in E. rewrite E in Z. discriminate.
  - intros (L & P & N & H). exists ph. split; [apply in_seq; lia|]. unfold rowsOf. rewrite P. apply Nat.eqb_neq in N. rewrite N. cbn [andb negb].
    destruct H as [[N1 ->]|[N1 (k & K & -> & Z)]]; [rewrite N1; cbn [Nat.eqb]; now left|]. apply Nat.eqb_neq in N1. rewrite N1.
    apply in_map_iff. exists (ph + 1 + k)%nat. split; [reflexivity|]. apply filter_In. split; [apply in_map_iff; exists k; split; [reflexivity|apply in_seq; lia]|].
    destruct (isZero (solComp (ph + 1 + k)%nat)) eqn:E; [apply isZero_iff in E; contradiction|reflexivity].
Qed.
Lemma present_entry ph c : present ph c -> (c < npc t)%nat.
Proof.
  intros (L & P & N & H). destruct (init_layout m t It ph L P) as [N1 Lay]. destruct H as [[_ ->]|[N2 (k & K & -> & _)]]; [exact L|]. destruct (Lay ltac:(lia)). lia.
Qed.
Lemma allowed_iff k : allowed t bulk k = true <-> available t bulk k.
Proof.
  unfold allowed, available. rewrite forallb_forall. split.
  - intros H o Ho N Z. specialize (H o ltac:(apply in_seq; lia)). apply isZero_iff in Z. rewrite Z in H. destruct (isZero (liqToOx t k o)) eqn:E; [apply isZero_iff in E; contradiction|discriminate].
  - intros H o Ho. apply in_seq in Ho. destruct (isZero (bulk o)) eqn:Z; [|reflexivity]. destruct (isZero (liqToOx t k o)) eqn:E; [reflexivity|]. exfalso.
    apply isZero_iff in Z. apply (H o ltac:(lia)); [|exact Z]. intros N. apply isZero_iff in N. congruence.
Qed.
Section Solved.
Variables (psi : nat -> R) (f left : Svd).
Hypothesis Eq : inEquilibrium t nSolid solComp gSol mixing psi.
Hypothesis Ex : expressible t bulk nSolid solComp.
Hypothesis Enough : (length columns <= length rows)%nat.
Hypothesis Fac : svdOf (length rows) (length columns) matrix f.
Notation mu := (muAbsent t bulk nSolid solComp gSol mixing f left).
Lemma present_mu ph c : present ph c -> sum (nlc t) (fun k => solToLiq t c k * mu k) = sum (nc t) (fun o => solToOx t c o * psi o).
Proof.
  intros P. pose proof (proj2 (in_rows ph c) P) as I. destruct (In_nth _ _ (0%nat, 0%nat) I) as (r & Lr & Er).
  unfold muAbsent, solution, factors. rewrite (proj2 (Nat.ltb_ge _ _) Enough).
  rewrite (packed (allowed t bulk) (fun k => solToLiq t c k) (svSolve (length rows) (length columns) (svU f) (svS f) (svV f) (fun r => potential t solComp gSol mixing (rowAt t nSolid solComp r)))).
  fold columns. destruct Fac as [F1 F2 F3 F4].
  pose (y := fun l => sum (nc t) (fun o => liqToOx t (nth l columns 0%nat) o * psi o)).
  assert (Y : forall i, (i < length rows)%nat -> potential t solComp gSol mixing (rowAt t nSolid solComp i) = sum (length columns) (fun l => matrix i l * y l)).
  { intros i Hi. assert (Pi : present (fst (rowAt t nSolid solComp i)) (snd (rowAt t nSolid solComp i))) by (apply in_rows; rewrite <- surjective_pairing; now apply nth_In).
    unfold AbsModel.matrix. destruct (rowAt t nSolid solComp i) as (ph', c') eqn:Er'. cbn [fst snd] in *.
    change (potential t solComp gSol mixing (ph', c')) with (potentialOf t solComp gSol mixing ph' c'). rewrite (Eq ph' c' Pi).
    transitivity (sum (nlc t) (fun k => solToLiq t c' k * (if allowed t bulk k then y (length (filter (allowed t bulk) (seq 0 k))) else 0))); [|exact (packed (allowed t bulk) (fun k => solToLiq t c' k) y (nlc t))].
    transitivity (sum (nlc t) (fun k => solToLiq t c' k * sum (nc t) (fun o => liqToOx t k o * psi o))).
    - rewrite (sum_ext (nlc t) _ (fun k => sum (nc t) (fun o => solToLiq t c' k * liqToOx t k o * psi o))) by (intros; rewrite <- sum_scal; apply sum_ext; intros; ring).
      rewrite sum_swap. apply sum_ext. intros o Ho. rewrite sum_scal_r. now rewrite (sol_through_liq m t Hm It c' o (present_entry _ _ Pi) Ho).
    - apply sum_ext. intros k Hk. destruct (Req_EM_T (solToLiq t c' k) 0) as [Z|Z]; [rewrite Z; ring|].
      pose proof (proj2 (allowed_iff k) (Ex ph' c' k Pi Hk Z)) as A. rewrite A. f_equal. unfold y.
      assert (NK : nth (length (filter (allowed t bulk) (seq 0 k))) columns 0%nat = k).
      { unfold AbsModel.columns. replace (seq 0 (nlc t)) with (seq 0 k ++ seq k (nlc t - k)) by (rewrite <- seq_app; f_equal; lia). rewrite filter_app, app_nth2, Nat.sub_diag by lia.
        destruct (nlc t - k)%nat as [|d] eqn:D; [lia|]. cbn [seq filter]. now rewrite A. }
      now rewrite NK. }
  pose proof (sv_exact (length rows) (length columns) (svU f) (svS f) (svV f) matrix _ y F1 F2 F3 F4 Y r Lr) as S.
  assert (Er' : rowAt t nSolid solComp r = (ph, c)) by exact Er.
  unfold AbsModel.matrix at 1 in S. rewrite Er' in S. cbn [snd] in S. rewrite <- (Eq ph c P). exact S.
Qed.
Lemma made_mu c e : (c < npc t)%nat -> madeOf t nSolid solComp c e ->
  sum (nlc t) (fun k => solToLiq t c k * mu k) = sum (nc t) (fun o => solToOx t c o * psi o) /\ forall k, (k < nlc t)%nat -> solToLiq t c k <> 0 -> available t bulk k.
Proof.
  intros Hc [E1 E2]. pose proof (same_components m t Hm It (npc t) e (fun c => c) c Hc ltac:(auto) E2) as S. split.
  - rewrite (sum_ext (nlc t) _ (fun k => sum (npc t) (fun c' => e c' * (solToLiq t c' k * mu k)))) by (intros k Hk; rewrite (S k Hk), <- sum_scal_r; apply sum_ext; intros; ring).
    rewrite sum_swap. rewrite (sum_ext (nc t) _ (fun o => sum (npc t) (fun c' => e c' * (solToOx t c' o * psi o)))) by (intros o Ho; rewrite (E2 o Ho), <- sum_scal_r; apply sum_ext; intros; ring).
    rewrite (sum_swap (nc t)). apply sum_ext. intros c' Hc'. rewrite !sum_scal. destruct (Req_EM_T (e c') 0) as [Z|Z]; [rewrite Z; ring|]. f_equal.
    destruct (E1 c' Hc' Z) as [ph P]. exact (present_mu ph c' P).
  - intros k Hk N. rewrite (S k Hk) in N. apply sum_nonzero in N. destruct N as (c' & L & N).
    destruct (Req_EM_T (e c') 0) as [Z|Z]; [rewrite Z in N; lra|]. destruct (E1 c' L Z) as [ph P]. apply (Ex ph c' k P Hk). intros Z'. rewrite Z' in N. lra.
Qed.
Variable x : SatIn.
Hypothesis Given : given t bulk nSolid solComp gSol mixing x f left.
Theorem C200_endmember c e : (c < npc t)%nat -> madeOf t nSolid solComp c e -> endmember t x c = (affinity t gSol psi c, false).
Proof.
  intros Hc E. destruct (made_mu c e Hc E) as [S A]. destruct Given as (G1 & G2 & G3 & G4).
  assert (M : SatModel.muLiq x = mu) by (unfold SatModel.muLiq; rewrite G1; exact G2).
  destruct (endmember_spec t x c) as [[(k & Hk & N & Z) _]|[_ ->]].
  - exfalso. rewrite G3 in Z. unfold liquidComp in Z. rewrite (proj2 (allowed_iff k) (A k Hk N)) in Z. lra.
  - unfold drive, affinity. rewrite M, G4, S. reflexivity.
Qed.
Theorem C200_pure_phase r0 i e : examined t x i -> na t i = 1%nat -> madeOf t nSolid solComp i e ->
  fst (fst (evaluateSaturationState t x r0)) i = affinity t gSol psi i.
Proof.
  intros X N E. pose proof X as (Hi & _). pose proof (C200_endmember i e Hi E) as D.
  destruct (endmember_spec t x i) as [[_ Q]|[L Q]]; [rewrite D in Q; discriminate|].
  rewrite (proj2 (C131_pure_phase t x (init_layout m t It) r0 i X N) L). rewrite D in Q. injection Q as Q. now symmetry.
Qed.
End Solved.
(** ** With fewer end members than components the potentials are what was left in memory *)
Theorem C202_refuted f k0 w : (length rows < length columns)%nat -> rows <> nil -> allowed t bulk k0 = true -> (k0 < nlc t)%nat ->
  (exists r, (r < length rows)%nat /\ matrix r 0%nat * potential t solComp gSol mixing (rowAt t nSolid solComp r) <> 0 /\ forall r', (r' < length rows)%nat -> r' <> r -> matrix r' 0%nat = 0) ->
  exists left, muAbsent t bulk nSolid solComp gSol mixing f left k0 = w.
Proof.
  intros L NR A K (r & Lr & N & O). set (l0 := length (filter (allowed t bulk) (seq 0 k0))).
  set (b := fun r => potential t solComp gSol mixing (rowAt t nSolid solComp r)) in *. set (u := matrix r 0%nat * b r).
  exists (mkSvd (fun _ _ => 0) (fun k => if Nat.eqb k 0 then 1 else 0) (fun _ k => if Nat.eqb k 0 then w / u else 0)).
  unfold muAbsent, solution, factors. rewrite A, (proj2 (Nat.ltb_lt _ _) L). cbn [svU svS svV]. fold b. unfold svSolve.
  transitivity (sum (length columns) (fun k => if Nat.eqb k 0 then w else 0)).
  - apply sum_ext. intros k Hk. destruct (Nat.eqb_spec k 0) as [->|]; [|destruct (Rlt_dec _ _); ring].
    destruct (Rlt_dec 1 (1 / 100000000)); [lra|].
    assert (S : sum (length rows) (fun i => matrix i 0%nat * b i) = u).
    { transitivity (sum (length rows) (fun i => if Nat.eqb i r then u else 0)).
      - apply sum_ext. intros i Hi. destruct (Nat.eqb_spec i r) as [->|Ni]; [reflexivity|]. rewrite (O i Hi Ni). ring.
      - rewrite sum_one_f. apply Nat.ltb_lt in Lr. now rewrite Lr. }
    rewrite S. unfold u in *. field. split; intros Z; apply N; unfold b in Z; rewrite Z; ring.
  - rewrite sum_one_f. assert (L0 : (0 < length columns)%nat) by lia. apply Nat.ltb_lt in L0. now rewrite L0.
Qed.
End Absent.
