(** Derivatives of the energy less that of the oxygen. *)
From Coq Require Import Reals List Lia Lra Bool Arith.
From Coquelicot Require Import Coquelicot.
From Verif Require Import MassModel MassSpec MassProofs RealTac StepModel StepProofs HessModel HessFill HessGen HessSpec HessPhase HessBlock HessProofs HessProps OxyModel OxyBase OxyFill OxySpec.
Import List ListNotations.
Open Scope R_scope.

Section Local.
Variable md : Mode.
Variables t p : R.
Hypothesis Ht : 0 < t.
Lemma mix_local X n D (OK : solutionOK X n D) std m j k : D m -> there n m j -> there n m k ->
  locally (m k) (fun x => ex_derive (fun y => phiM md X n std t p (upd (upd m k x) j y) (tauOf md t p)) (upd m k x j)).
Proof.
  intros Dm Hj Hk. destruct (Fc_grad md X n D OK t p Ht) as [G1 _]. destruct (at_tau md t p) as [T1 T2].
  generalize (near X n D OK m k Dm Hk). apply filter_imp. intros x [Dx Hx]. eexists.
  apply (is_derive_ext (fun y => sum n (upd (upd m k x) j y) * Fc md X t p (xR X (upd (upd m k x) j y)) + sum n (fun i => upd (upd m k x) j y i * qc md (std i) t p))).
  - intros y. unfold phiM. rewrite mixPot_eq, T1, T2. reflexivity.
  - apply (is_derive_plus (fun y => sum n (upd (upd m k x) j y) * Fc md X t p (xR X (upd (upd m k x) j y)))); [exact (ext_d1 X n D (Fc md X t p) _ G1 (upd m k x) j Dx (Hx j Hj))|].
    apply (linear_d n (fun i => qc md (std i) t p) (upd m k x) j (proj1 Hj)).
Qed.
Lemma pure_local q m x : ex_derive (fun y => phiP md q t p (upd m O y) (tauOf md t p)) x.
Proof.
  destruct (at_tau md t p) as [T1 T2]. exists (qc md q t p).
  apply (is_derive_ext (fun y => y * qc md q t p)); [intros y; unfold phiP; rewrite purePot_eq, upd_same, T1, T2; reflexivity|].
  generalize (qc md q t p). intros a. auto_derive; [auto|]. match goal with |- ?a = ?b => change (@eq R a b) end. ring.
Qed.
End Local.

Lemma sum_upd n (nu m : nat -> R) j y : (j < n)%nat -> sum n (fun i => nu i * upd m j y i) = sum n (fun i => nu i * m i) + nu j * (y - m j).
Proof.
  intros Hj. induction n; [lia|]. cbn [sum]. destruct (Nat.eq_dec j n) as [->|Ne].
  - rewrite (sum_ext n (fun i => nu i * upd m n y i) (fun i => nu i * m i)) by (intros i Hi; unfold upd; replace (i =? n)%nat with false by (symmetry; apply Nat.eqb_neq; lia); reflexivity).
    unfold upd. rewrite Nat.eqb_refl. ring.
  - rewrite IHn by lia. unfold upd at 1. replace (n =? j)%nat with false by (symmetry; apply Nat.eqb_neq; lia). ring.
Qed.

Section Oxy.
Variable tab : Tab.
Variable md : Mode.
Variables t p : R.
Variable liqX : Mixing.
Variable liqStd : nat -> Std.
Variable solX : nat -> Mixing.
Variable solStd : nat -> Std.
Variable DL : (nat -> R) -> Prop.
Variable DS : nat -> (nat -> R) -> Prop.
Hypothesis Lay : layout tab.
Hypothesis Ht : 0 < t.
Hypothesis OKL : solutionOK liqX (nlc tab) DL.
Hypothesis OKS : forall i, (i < npc tab)%nat -> isPhase tab i = true -> na tab i <> 1%nat -> solutionOK (solX i) (na tab i) (DS i).
Hypothesis StdL : forall j, (j < nlc tab)%nat -> stdOK (liqStd j).
Hypothesis StdS : forall i, (i < npc tab)%nat -> stdOK (solStd i).
Variable s : St.
Hypothesis Cnt : counts tab s.
Hypothesis InL : hasLiquid s = true -> forall nl, (nl < nLiq s)%nat -> DL (liqC s nl).
Hypothesis InS : forall i n, (n < nSol s i)%nat -> na tab i <> 1%nat -> DS i (fun j => solC s (i + 1 + j)%nat n) /\ solC s i n = sum (na tab i) (fun j => solC s (i + 1 + j)%nat n).
Notation pot := (potential tab liqX liqStd solX solStd md (hasLiquid s)).
Notation Bk := (Bk tab md t p liqX liqStd solX solStd).
Notation act := (act tab md t p liqX liqStd solX solStd).
Notation ids := (ids tab).
Notation phi := (phi tab md t p liqX liqStd solX solStd).
Notation updA := (updA Id id_dec).

Lemma act_there' d j : In d (ids s) -> In j (act s d) -> match d with IP _ => j = O | IL _ => there (nlc tab) (amt s d) j | IS i _ => there (na tab i) (amt s d) j end.
Proof.
  intros I J. destruct d as [nl|i|i n]; cbn [HessProofs.act] in J.
  - pose proof (act_range tab md t p liqX liqStd solX solStd s (IL nl) j J) as K. split; [exact K|]. unfold active, upto in J. apply filter_In in J. destruct J as [_ J]. unfold isActive in J. cbn [HessProofs.Bk] in J. unfold liqBlock in J. rewrite B_m in J.
    unfold zeroR in J. cbn [amt]. destruct (Req_EM_T (liqC s nl j) 0); [discriminate|auto].
  - destruct J as [<-|[]]. reflexivity.
  - pose proof (act_range tab md t p liqX liqStd solX solStd s (IS i n) j J) as K. split; [exact K|]. unfold active, upto in J. apply filter_In in J. destruct J as [_ J]. unfold isActive in J. cbn [HessProofs.Bk] in J. unfold solBlock in J. rewrite B_m in J.
    unfold zeroR in J. cbn [amt]. destruct (Req_EM_T (solC s (i + 1 + j)%nat n) 0); [discriminate|auto].
Qed.
Lemma phi_local d j k : In d (ids s) -> In j (act s d) -> In k (act s d) ->
  locally (amt s d k) (fun x => ex_derive (fun y => phi d (upd (upd (amt s d) k x) j y) (tauOf md t p)) (upd (amt s d) k x j)).
Proof.
  intros I J K. pose proof (act_there' d j I J) as Tj. pose proof (act_there' d k I K) as Tk. apply (in_ids tab s) in I. destruct d as [nl|i|i n]; cbn [HessProofs.phi].
  - destruct I as [I1 I2]. apply (mix_local md t p Ht liqX (nlc tab) DL OKL liqStd (amt s (IL nl)) j k); auto. exact (InL I1 nl I2).
  - subst j. apply filter_forall. intros x. apply pure_local.
  - destruct I as (I1 & I2 & I3). apply (mix_local md t p Ht (solX i) (na tab i) (DS i) (OKS i I1 (proj1 (counted_phase tab s Cnt i ltac:(lia))) I3)); auto. exact (proj1 (InS i n I2 I3)).
Qed.
Lemma pot_local d j d' k : In d (ids s) -> In d' (ids s) -> In j (act s d) -> In k (act s d') ->
  locally (valVar s (var d' k)) (fun x => ex_derive (fun y => pot t p (setVar (var d j) y (setVar (var d' k) x s))) (valVar (setVar (var d' k) x s) (var d j))).
Proof.
  intros I I' J K. destruct (at_tau md t p) as [T1 T2].
  assert (Rj : (j < num tab d)%nat) by (eapply act_range; eauto). assert (Rk : (k < num tab d')%nat) by (eapply act_range; eauto).
  assert (G : locally (amt s d' k) (fun x => ex_derive (fun y => phi d (upd (updA (amt s) d' k x d) j y) (tauOf md t p)) (updA (amt s) d' k x d j))).
  { destruct (id_dec d' d) as [->|Ne].
    - generalize (phi_local d j k I J K). apply filter_imp. intros x Hx. rewrite updA_same. exact Hx.
    - apply filter_forall. intros x. rewrite updA_other by congruence. eexists.
      exact (ex1 Id (Bk s) (act s) phi (amt s) (tauOf md t p) d (block_exact tab md t p liqX liqStd solX solStd DL DS Lay Ht OKL OKS StdL StdS s Cnt InL InS d I) j J). }
  rewrite <- amt_val. revert G. apply filter_imp. intros x [l Hl].
  assert (S1 : same tab s (amt (setVar (var d' k) x s)) (updA (amt s) d' k x)) by (eapply same_set; eauto; apply same_refl).
  rewrite <- amt_val, (S1 d I j Rj). exists (0 + l).
  destruct (split_one Id (ids s) (ids_NoDup tab s) (fun d0 => phi d0 (updA (amt s) d' k x d0) (tauOf md t p)) d I) as [c Hc].
  apply (is_derive_ext (fun y => c + phi d (upd (updA (amt s) d' k x d) j y) (tauOf md t p))).
  - intros y. symmetry. transitivity (pot (atT md t (tauOf md t p)) (atP md p (tauOf md t p)) (setVar (var d j) y (setVar (var d' k) x s))); [now rewrite T1, T2|].
    rewrite (pot_Pot tab md t p liqX liqStd solX solStd DL DS OKL OKS s Cnt (setVar (var d j) y (setVar (var d' k) x s)) (updA (updA (amt s) d' k x) d j y) (tauOf md t p)).
    + unfold Pot. rewrite (Hc (fun d0 => phi d0 (updA (updA (amt s) d' k x) d j y d0) (tauOf md t p))); [now rewrite updA_same|]. intros d0 N0. cbv beta. now rewrite updA_other.
    + now rewrite !set_ids.
    + now rewrite !set_has.
    + now do 2 apply set_counts.
    + eapply same_set; eauto.
  - apply (is_derive_plus (fun _ => c)); [apply (is_derive_const (V := R_NormedModule))|exact Hl].
Qed.
Lemma pot_local_t d j : md <> Plain -> In d (ids s) -> In j (act s d) ->
  locally (valVar s (var d j)) (fun y => ex_derive (fun tau => pot (atT md t tau) (atP md p tau) (setVar (var d j) y s)) (tauOf md t p)).
Proof.
  intros Np I J. assert (Rj : (j < num tab d)%nat) by (eapply act_range; eauto).
  pose proof (fun d => block_exactT tab md t p liqX liqStd solX solStd DL DS Lay Ht OKL OKS StdL StdS s Cnt InL InS d Np) as E.
  rewrite <- amt_val. generalize (ex4l Id (Bk s) (act s) phi (amt s) (tauOf md t p) d (E d I) j J). apply filter_imp. intros x Hx.
  assert (S1 : same tab s (amt (setVar (var d j) x s)) (updA (amt s) d j x)) by (eapply same_set; eauto; apply same_refl).
  apply (ex_derive_ext (fun tau => Pot Id (ids s) phi (updA (amt s) d j x) tau)).
  - intros tau. symmetry. eapply pot_Pot; eauto; [apply set_ids|apply set_has|now apply set_counts].
  - unfold Pot. eexists. apply (sumL_der Id (fun d0 tau => phi d0 (updA (amt s) d j x d0) tau) (fun d0 => Derive (fun tau => phi d0 (updA (amt s) d j x d0) tau) (tauOf md t p))).
    intros d0 I0. apply Derive_correct. destruct (id_dec d0 d) as [->|Ne].
    + apply (ex_derive_ext (fun tau => phi d (upd (amt s d) j x) tau)); [intros tau; now rewrite updA_same|]. exact Hx.
    + apply (ex_derive_ext (fun tau => phi d0 (amt s d0) tau)); [intros tau; now rewrite updA_other|]. eexists. exact (ex3 Id (Bk s) (act s) phi (amt s) (tauOf md t p) d0 (E d0 I0)).
Qed.
Lemma pot_local_tt : md <> Plain -> locally (tauOf md t p) (fun tau => ex_derive (fun tau => pot (atT md t tau) (atP md p tau) s) tau).
Proof.
  intros Np. pose proof (fun d => block_exactT tab md t p liqX liqStd solX solStd DL DS Lay Ht OKL OKS StdL StdS s Cnt InL InS d Np) as E.
  assert (L : locally (tauOf md t p) (fun tau => forall d, In d (ids s) -> ex_derive (fun tau => phi d (amt s d) tau) tau)).
  { assert (G : forall l, incl l (ids s) -> locally (tauOf md t p) (fun tau => forall d, In d l -> ex_derive (fun tau => phi d (amt s d) tau) tau)).
    { induction l as [|d l IH]; intros Hi; [apply filter_forall; intros x d []|].
      pose proof (ex5l Id (Bk s) (act s) phi (amt s) (tauOf md t p) d (E d (Hi d (or_introl eq_refl)))) as L1. specialize (IH (fun a b => Hi a (or_intror b))).
      generalize (filter_and _ _ L1 IH). apply filter_imp. intros x [H1 H2] d' [<-|I]; auto. }
    apply G. apply incl_refl. }
  revert L. apply filter_imp. intros tau Hd. apply (ex_derive_ext (fun tau => Pot Id (ids s) phi (amt s) tau)).
  - intros x. symmetry. eapply pot_Pot; eauto. apply same_refl.
  - unfold Pot. eexists. apply (sumL_der Id (fun d0 tau => phi d0 (amt s d0) tau) (fun d0 => Derive (fun tau => phi d0 (amt s d0) tau) tau)). intros d0 I0. apply Derive_correct. auto.
Qed.

(** ** The moles of oxygen *)
Variable nuL : nat -> R.
Variable nuS : nat -> R.
Notation nuId := (nuId nuL nuS).
Lemma oxygen_sum s' : counts tab s' -> hasLiquid s' = true -> oxygen tab nuL nuS s' = sumL Id (fun d => sum (num tab d) (fun j => nuId d j * amt s' d j)) (ids s').
Proof.
  intros Cn HL. unfold oxygen, HessProofs.ids. rewrite sumL_app. f_equal.
  - unfold idsL. rewrite HL, sumL_seq. apply sum_ext. intros nl _. reflexivity.
  - unfold HessProofs.idsS. clear - Cn. induction (npc tab) as [|k IH]; [reflexivity|]. cbn [sum]. rewrite IH, seq_S, flat_map_app, sumL_app. f_equal. cbn [Nat.add flat_map]. rewrite app_nil_r.
    unfold idsP. destruct (Nat.ltb_spec 0 (nSol s' k)) as [P|P]; [|replace (nSol s' k) with 0%nat by lia; reflexivity].
    destruct (Nat.eqb_spec (na tab k) 1) as [E|E].
    + destruct Cn as (_ & C2 & _). specialize (C2 k E). replace (nSol s' k) with 1%nat by lia. cbn [sum]. rewrite sumL_cons. unfold sumL. cbn. ring.
    + rewrite sumL_seq. apply sum_ext. intros n _. reflexivity.
Qed.
Lemma oxygen_set d j y s' : counts tab s' -> hasLiquid s' = true -> ids s' = ids s -> In d (ids s) -> (j < num tab d)%nat ->
  oxygen tab nuL nuS (setVar (var d j) y s') = oxygen tab nuL nuS s' + nuId d j * (y - amt s' d j).
Proof.
  intros Cn HL Ei I Hj. rewrite !oxygen_sum; auto; [|now apply set_counts|now rewrite set_has]. rewrite set_ids, Ei.
  assert (S1 : same tab s (amt (setVar (var d j) y s')) (updA (amt s') d j y)) by (eapply same_set; eauto; apply same_refl).
  destruct (split_one Id (ids s) (ids_NoDup tab s) (fun d0 => sum (num tab d0) (fun j => nuId d0 j * amt s' d0 j)) d I) as [c Hc].
  rewrite (sumL_ext Id (fun d0 => sum (num tab d0) (fun j0 => nuId d0 j0 * amt (setVar (var d j) y s') d0 j0)) (fun d0 => sum (num tab d0) (fun j0 => nuId d0 j0 * updA (amt s') d j y d0 j0))).
  - rewrite (Hc (fun d0 => sum (num tab d0) (fun j0 => nuId d0 j0 * updA (amt s') d j y d0 j0))) by (intros d0 N0; cbv beta; now rewrite updA_other).
    rewrite (Hc (fun d0 => sum (num tab d0) (fun j0 => nuId d0 j0 * amt s' d0 j0))) by reflexivity. rewrite updA_same, sum_upd by auto. ring.
  - intros d0 I0. apply sum_ext. intros k Hk. now rewrite (S1 d0 I0 k Hk).
Qed.
End Oxy.
