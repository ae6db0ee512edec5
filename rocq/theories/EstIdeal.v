(** getAffinityAndComposition: the ideal solution, and the result as a function of the arguments. *)
From Coq Require Import Reals List Bool Arith Lra Lia.
From Verif Require Import MassModel LiqModel LaSpec LaBase HhModel HhProofs CholModel CholProofs HftiProofs QuadModel NashModel NashSpec NashProofs VmminProofs MarqProofs NashProps CoexModel CoexSolModel EstModel EstProofs.
Import ListNotations.
Open Scope R_scope.
(** from a root modmrt returns at once *)
Lemma modmrt_root n m r J reltest maxIter B0 F0 o : (0 < n)%nat -> 0 <= reltest -> (forall i, (i < m)%nat -> r i B0 = Some 0) ->
  modmrt n m r J reltest maxIter B0 F0 o -> codev o = SUCCESS /\ oF o = 0 /\ forall i, (i < n)%nat -> oB o i = B0 i.
Proof.
  intros Hn Rl Z. unfold modmrt. rewrite (proj2 (Nat.eqb_neq n 0)) by lia.
  pose proof (residuals_spec m r B0 (fun _ => 0)) as RS. destruct (residuals m r B0 _) as [[res p]|].
  2:{ destruct RS as (i & Hi & E). rewrite Z in E by assumption. discriminate. }
  destruct RS as [R1 R2].
  assert (RZ : forall i, (i < m)%nat -> res i = 0) by (intros i Hi; pose proof (R1 i Hi) as Q; rewrite Z in Q by assumption; congruence).
  assert (P0 : p = 0).
  { rewrite R2. unfold ssq. rewrite (LaBase.sum_ext m _ (fun _ => 0)); [apply LaBase.sum_0; reflexivity|]. intros i Hi. rewrite Z by assumption. cbn. ring. }
  intro Q.
  match type of Q with runs ?st ?s _ => assert (E : exists B, st s = inr {| codev := SUCCESS; oB := B; oF := p |} /\ forall i, (i < n)%nat -> B i = B0 i) end.
  { unfold modmrtStep. cbn [calcmat mB mX mF lambda mifn am cm vm resm].
    pose proof (normalEqs_spec n m (fun i => J i B0) res) as NE. destruct (normalEqs n m _ res) as [a v]. destruct NE as [N1 N2].
    assert (V : forall i, (i < n)%nat -> v i = 0).
    { intros i Hi. rewrite N2 by assumption. rewrite (LaBase.sum_ext m _ (fun _ => 0)); [apply LaBase.sum_0; reflexivity|]. intros k Hk. rewrite RZ by assumption. ring. }
    set (dm := damp n (1 / 10000) a a).
    assert (Pk : forall i l, (i < n)%nat -> (l < n)%nat -> CholProofs.packE dm i l = damped m (fun k => J k B0) (1 / 10000) i l).
    { assert (G : forall i l, (l <= i)%nat -> (i < n)%nat -> CholProofs.packE dm i l = damped m (fun k => J k B0) (1 / 10000) i l).
      { intros i l Ll Hi. unfold CholProofs.packE. rewrite (proj2 (Nat.leb_le l i)) by lia. unfold dm. rewrite damp_spec by auto. unfold damped.
        destruct (Nat.eqb_spec i l); [subst l|]; rewrite N1 by auto; ring. }
      intros i l Hi Hl. destruct (le_lt_dec l i); [auto|]. rewrite packE_sym, G by lia. unfold damped. rewrite (Nat.eqb_sym l i).
      rewrite (LaBase.sum_ext m (fun k => J k B0 l * J k B0 i) (fun k => J k B0 i * J k B0 l)) by (intros; ring).
      destruct (Nat.eqb_spec i l); [subst; auto|auto]. }
    assert (PD : posDef n (CholProofs.packE dm)).
    { intros x Hx. rewrite (quad_ext n _ (damped m (fun k => J k B0) (1 / 10000))) by auto. apply damped_posdef; [lra|exact Hx]. }
    assert (NS : snd (Choldcmp n dm) = false) by (apply chol_posdef; exact PD).
    pose proof (chol_solve n dm (fun j => - v j) Hn NS) as Sol. destruct (Choldcmp n dm) as [L sg]. cbn [fst snd] in *. subst sg.
    set (delta := Cholback n L (fun j => - v j)) in *.
    assert (D0 : forall i, (i < n)%nat -> delta i = 0).
    { assert (QZ : quad n (CholProofs.packE dm) delta = 0).
      { unfold quad. rewrite (LaBase.sum_ext n _ (fun _ => 0)); [apply LaBase.sum_0; reflexivity|]. intros i Hi. rewrite (LaBase.sum_ext n _ (fun l => delta i * (CholProofs.packE dm i l * delta l))) by (intros; ring). rewrite LaBase.sum_scal. unfold apply in Sol. rewrite (Sol i Hi), (V i Hi). ring. }
      intros i Hi. destruct (Req_dec (delta i) 0) as [E|E]; [exact E|]. exfalso. specialize (PD delta (ex_intro _ i (conj Hi E))). lra. }
    set (B := upto n (fun i => upto n B0 (fun _ => 0) i + delta i) B0).
    assert (BB : forall i, (i < n)%nat -> B i = B0 i).
    { intros i Hi. unfold B, upto. rewrite (proj2 (Nat.ltb_lt i n) Hi), (D0 i Hi). ring. }
    destruct (stillLe_all n (upto n B0 (fun _ => 0)) B reltest) as [S1 S2].
    assert (SN : stillLe n (upto n B0 (fun _ => 0)) B reltest = n).
    { apply S2. intros i Hi. rewrite (BB i Hi). unfold upto. rewrite (proj2 (Nat.ltb_lt i n) Hi). rewrite Rminus_diag_eq by reflexivity. rewrite Rabs_R0. exact Rl. }
    rewrite SN, Nat.ltb_irrefl. exists B. split; [reflexivity|exact BB]. }
  destruct E as (B & E1 & E2). destruct Q as [s o' Q1|s s' o' Q1 Q2]; rewrite E1 in Q1; [|discriminate]. injection Q1 as <-. cbn [codev oF oB]. split; [reflexivity|]. split; [exact P0|exact E2].
Qed.
Section Ideal.
Variable X : Solid.
Variable act : (nat -> R) -> nat -> R.
Variable dact : (nat -> R) -> nat -> nat -> R.
Variable hess : (nat -> R) -> mat.
Variable rq : nat -> mat -> vec -> option vec.
Variables t p : R.
Variable h0 : nat -> R.
Variable F0 : R.
Variable zeroX : nat -> bool.
Variable muIn : nat -> R.
Notation na := (sNa X). Notation nr := (sNr X).
Hypothesis T : 0 < t.
Hypothesis P : 0 <= p.
Hypothesis NR : na = S nr.
Hypothesis None0 : forall i, (i < na)%nat -> zeroX i = false.
(** the equilibrium of an ideal solution: x_i = exp (- mu_i / R t) / Z, affinity - R t ln Z *)
Definition weight (i : nat) : R := exp (- muIn i / (8.3143 * t)).
Definition Z : R := LaSpec.sum na weight.
Lemma weight_pos i : 0 < weight i. Proof. apply exp_pos. Qed.
Lemma sum_weight n : 0 <= LaSpec.sum n weight. Proof. induction n; cbn [LaSpec.sum]; [lra|]. generalize (weight_pos n). lra. Qed.
Lemma Z_pos : 0 < Z. Proof. unfold Z. rewrite NR. cbn [LaSpec.sum]. generalize (sum_weight nr) (weight_pos nr). lra. Qed.
Lemma filter_all (f : nat -> bool) l : (forall i, In i l -> f i = true) -> filter f l = l.
Proof. induction l as [|a l IH]; intro H; [reflexivity|]. cbn [filter]. rewrite (H a (or_introl eq_refl)). f_equal. apply IH. intros. apply H. right. assumption. Qed.
Lemma filter_none (f : nat -> bool) l : (forall i, In i l -> f i = false) -> filter f l = [].
Proof. induction l as [|a l IH]; intro H; [reflexivity|]. cbn [filter]. rewrite (H a (or_introl eq_refl)). apply IH. intros. apply H. right. assumption. Qed.
Lemma ne0 : neE X zeroX = 0%nat.
Proof. unfold neE, nullsE. rewrite filter_none; [reflexivity|]. intros i Hi. apply in_seq in Hi. apply None0. lia. Qed.
Lemma present_all : presentE X zeroX = seq 0 na.
Proof. unfold presentE. apply filter_all. intros i Hi. apply in_seq in Hi. rewrite None0 by lia. reflexivity. Qed.
Lemma nz_na : nzE X zeroX = na. Proof. unfold nzE. rewrite present_all. apply seq_length. Qed.
Lemma null_id k : (k < na)%nat -> nullList X zeroX k = k.
Proof. intro K. unfold nullList. rewrite present_all. rewrite seq_nth by exact K. reflexivity. Qed.
Lemma mu_id k : (k < na)%nat -> mu X zeroX muIn k = muIn k. Proof. intro K. unfold mu. now rewrite null_id. Qed.
Lemma place_id i : (i < na)%nat -> place zeroX i = i.
Proof. intro I. unfold place. rewrite filter_all; [apply seq_length|]. intros j Hj. apply in_seq in Hj. rewrite None0 by lia. reflexivity. Qed.
Lemma RT : 0 < 8.3143 * t. Proof. apply Rmult_lt_0_compat; lra. Qed.
Lemma ratio i j : exp (- (muIn i - muIn j) / (Rg * t)) = weight i / weight j.
Proof. unfold weight. replace (- (muIn i - muIn j) / (Rg * t)) with (- muIn i / (8.3143 * t) + - (- muIn j / (8.3143 * t))) by (unfold Rg; generalize RT; intro; field; lra). rewrite exp_plus, exp_Ropp. reflexivity. Qed.
Lemma guess_ideal i : (i < na)%nat -> guessX X t zeroX muIn i = weight i / Z.
Proof.
  intro I. generalize Z_pos. intro ZP. unfold guessX. rewrite nz_na. destruct (Nat.eqb_spec na 1) as [E|E].
  - assert (i = 0%nat) by lia. subst i. unfold Z in *. rewrite E in *. cbn [LaSpec.sum] in *. rewrite Rplus_0_l in *. field. lra.
  - set (n2 := (na - 2)%nat).
    assert (F : forall j, (j < n2)%nat -> guessF X t zeroX muIn j = weight j / weight n2).
    { intros j Hj. unfold guessF. rewrite nz_na. fold n2. rewrite !mu_id by (unfold n2 in *; lia). apply ratio. }
    assert (ZE : Z = LaSpec.sum n2 weight + weight n2 + weight (na - 1)%nat).
    { unfold Z. replace na with (S (S n2)) at 1 by (unfold n2; lia). cbn [LaSpec.sum]. replace (S n2) with (na - 1)%nat by (unfold n2; lia). reflexivity. }
    assert (SF : MassModel.sum n2 (guessF X t zeroX muIn) = LaSpec.sum n2 weight / weight n2).
    { change MassModel.sum with LaSpec.sum. rewrite (LaBase.sum_ext n2 _ (fun j => / weight n2 * weight j)) by (intros j Hj; rewrite F by exact Hj; unfold Rdiv; ring). rewrite LaBase.sum_scal. unfold Rdiv. ring. }
    assert (L : guessLast X t zeroX muIn = weight n2 / Z).
    { unfold guessLast. rewrite nz_na. fold n2. rewrite SF. rewrite !mu_id by (unfold n2 in *; lia). rewrite ratio. rewrite ZE in *.
      generalize (weight_pos n2) (weight_pos (na - 1)%nat) (sum_weight n2). intros. field. split; [lra|]. split; lra. }
    rewrite L. assert (W : weight n2 <> 0) by (generalize (weight_pos n2); lra).
    destruct (Nat.ltb_spec i n2) as [Q|Q].
    + rewrite F by exact Q. field. split; [lra|exact W].
    + destruct (Nat.eqb_spec i n2) as [Q1|Q1]; [subst i; reflexivity|].
      assert (i = (na - 1)%nat) by (unfold n2 in *; lia). subst i. change MassModel.sum with LaSpec.sum.
      rewrite (LaBase.sum_ext n2 _ (fun j => / Z * weight j)) by (intros j Hj; rewrite F by exact Hj; field; split; [lra|exact W]). rewrite LaBase.sum_scal.
      rewrite ZE in *. field. lra.
Qed.
Lemma guessFull_ideal i : (i < na)%nat -> guessFull X t zeroX muIn i = weight i / Z.
Proof. intro I. unfold guessFull. rewrite (None0 i I), (place_id i I). apply guess_ideal. exact I. Qed.
Lemma ln_x i : ln (weight i / Z) = - muIn i / (8.3143 * t) - ln Z.
Proof. unfold Rdiv at 1. rewrite ln_mult; [|apply weight_pos|apply Rinv_0_lt_compat, Z_pos]. rewrite ln_Rinv by apply Z_pos. unfold weight. rewrite ln_exp. ring. Qed.
Lemma guessA_ideal : guessA X t zeroX muIn = - (8.3143 * t) * ln Z / 1000.
Proof.
  generalize RT. intro Q. unfold guessA. rewrite nz_na. destruct (Nat.eqb_spec na 1) as [E|E].
  - rewrite mu_id by lia. unfold Z. rewrite E. cbn [LaSpec.sum]. rewrite Rplus_0_l. unfold weight. rewrite ln_exp. unfold SCALE. field. lra.
  - rewrite mu_id by lia. rewrite guess_ideal by lia. rewrite ln_x. unfold SCALE, Rg. field. lra.
Qed.
(** an ideal solution: the activity of every end-member is its mole fraction *)
Definition ideal : Prop := forall x, (forall i, (i < na)%nat -> 0 < x i) -> LaSpec.sum na x = 1 -> forall i, (i < na)%nat -> act (sR X x) i = x i.
Notation get := (getAffinity X act dact hess rq t p h0 F0 zeroX muIn).
(** the phase reads only its nr variables *)
Definition reads : Prop := forall r r', (forall i, (i < nr)%nat -> r i = r' i) -> sTest X r = sTest X r' /\ forall i, (i < na)%nat -> act r i = act r' i.
Hypothesis RD : reads.
Hypothesis ID : ideal.
Hypothesis OK : forall x, (forall i, (i < na)%nat -> x i = weight i / Z) -> sTest X (sR X x) = true.
Notation gR := (guessR X t zeroX muIn). Notation gA := (guessA X t zeroX muIn).
Notation b0 := (packE X t h0 zeroX muIn gR gA).
Lemma lift_pack b : (forall i, (i < nr)%nat -> b i = b0 i) -> forall i, (i < nr)%nat -> liftE X t h0 zeroX muIn b i = gR i.
Proof.
  intros B i Hi. unfold liftE. rewrite ne0. cbn [Nat.eqb]. rewrite (proj2 (Nat.ltb_ge i 0)) by lia. rewrite Nat.sub_0_r. rewrite (B i Hi). unfold packE. rewrite nz_na, (proj2 (Nat.eqb_neq i (na - 1))) by lia.
  unfold toFreeE. rewrite ne0. cbn [Nat.eqb]. rewrite Nat.add_0_r. reflexivity.
Qed.
Lemma sum_x : LaSpec.sum na (guessFull X t zeroX muIn) = 1.
Proof.
  rewrite (LaBase.sum_ext na _ (fun i => / Z * weight i)) by (intros i Hi; rewrite guessFull_ideal by exact Hi; unfold Rdiv; ring). rewrite LaBase.sum_scal. fold Z. apply Rinv_l. generalize Z_pos. lra.
Qed.
Lemma res0 i : (i < nzE X zeroX)%nat -> func X act t h0 zeroX muIn i b0 = Some 0.
Proof.
  intro I. rewrite nz_na in I. unfold func. destruct (RD (liftE X t h0 zeroX muIn b0) gR (lift_pack b0 (fun _ _ => eq_refl))) as (R1 & R2). rewrite R1.
  unfold guessR at 1. rewrite (OK (guessFull X t zeroX muIn) guessFull_ideal). f_equal. rewrite null_id by exact I. rewrite R2 by exact I. unfold guessR. rewrite (ID _ (fun i Hi => eq_ind_r (fun z => 0 < z) (Rdiv_lt_0_compat _ _ (weight_pos i) Z_pos) (guessFull_ideal i Hi)) sum_x i I).
  rewrite guessFull_ideal by exact I. rewrite mu_id by exact I. unfold packE. rewrite Nat.eqb_refl. rewrite guessA_ideal, ln_x. unfold Rg, SCALE. generalize RT. intro. field. lra.
Qed.
(** C162: for an ideal solution the answer is exact *)
Theorem C162_ideal_exact : (exists c, get c) /\ forall c, get c -> exists r x, c = Success r (- (8.3143 * t) * ln Z) /\
  (forall i, (i < nr)%nat -> r i = sR X x i) /\ forall i, (i < na)%nat -> x i = weight i / Z.
Proof.
  assert (NZ : (0 < nzE X zeroX)%nat) by (rewrite nz_na; lia). assert (NZ' : nzE X zeroX <> 0%nat) by lia.
  assert (FT : forall o, fit X act dact t h0 F0 zeroX muIn (/ 1000000) gR gA o -> codev o = SUCCESS /\ oF o = 0 /\ forall i, (i < nzE X zeroX)%nat -> oB o i = b0 i).
  { intros o Fo. apply (modmrt_root (nzE X zeroX) (nzE X zeroX) (func X act t h0 zeroX muIn) (grad X act dact t h0 zeroX muIn) (/ 1000000) 250 b0 F0 o NZ); [lra|exact res0|exact Fo]. }
  assert (SM : 0 < small) by (rewrite small_eq; apply Rinv_0_lt_compat, pow_lt; lra). split.
  - destruct (C50_marquardt_returns (nzE X zeroX) (nzE X zeroX) (func X act t h0 zeroX muIn) (grad X act dact t h0 zeroX muIn) (/ 1000000) 250 b0 F0 NZ) as (o & Fo).
    destruct (FT o Fo) as (F1 & F2 & _). exists (answer X t h0 zeroX muIn o). apply aff_good; try assumption. rewrite F2. lra.
  - intros c G. destruct G as [G|o G1 G2 G3 G4 G5 G6|o G1 G2 G3 G4 G5 G6 G7|o c G1 G2 G3 G4 G5 G6 G7 G8].
    + exfalso. destruct G as [G|[G|[G|G]]]; [lra|lra|congruence|congruence].
    + exfalso. apply G6. apply (FT o G5).
    + destruct (FT o G5) as (F1 & F2 & F3). exists (liftE X t h0 zeroX muIn (oB o)), (guessFull X t zeroX muIn). split; [|split].
      * unfold answer. f_equal. rewrite F3 by lia. unfold packE. rewrite Nat.eqb_refl, guessA_ideal. unfold SCALE. field.
      * intros i Hi. apply lift_pack; [|exact Hi]. intros k Hk. apply F3. rewrite nz_na. lia.
      * apply guessFull_ideal.
    + exfalso. destruct (FT o G5) as (F1 & F2 & F3). rewrite F2 in G7. lra.
Qed.
End Ideal.
