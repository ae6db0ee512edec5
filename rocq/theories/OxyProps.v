(** C166: gradient and Hessian of a minimisation step on an oxygen buffer, with one liquid. *)
From Coq Require Import Reals List Lia Lra Bool Arith.
From Coquelicot Require Import Coquelicot.
From Verif Require Import MassModel MassSpec MassProofs RealTac StepModel StepProofs HessModel HessFill HessGen HessSpec HessPhase HessBlock HessProofs HessProps OxyModel OxyBase OxyFill OxySpec OxyProofs.
Import List ListNotations.
Open Scope R_scope.

Section C166.
Variable tab : Tab.
Variable md : Mode.
Variables t p : R.
Variable liqX : Mixing.
Variable liqStd : nat -> Std.
Variable solX : nat -> Mixing.
Variable solStd : nat -> Std.
Variable conCols : nat.
Variable nuL : nat -> R.
Variable nuS : nat -> R.
Variable ol : OxyL.
Variable oe : OxyE.
Variable os : OxyS.
Variable DL : (nat -> R) -> Prop.
Variable DS : nat -> (nat -> R) -> Prop.
Hypothesis Md : md = Plain \/ md = Isochoric.
Hypothesis Lay : layout tab.
Hypothesis Ht : 0 < t.
Hypothesis OKL : solutionOK liqX (nlc tab) DL.
Hypothesis OKS : forall i, (i < npc tab)%nat -> isPhase tab i = true -> na tab i <> 1%nat -> solutionOK (solX i) (na tab i) (DS i).
Hypothesis StdL : forall j, (j < nlc tab)%nat -> stdOK (liqStd j).
Hypothesis StdS : forall i, (i < npc tab)%nat -> stdOK (solStd i).
Hypothesis OKO : oxyOK ol (nlc tab) DL.
Variable s : St.
Hypothesis Cnt : counts tab s.
Hypothesis HasL : hasLiquid s = true.
Hypothesis One : nLiq s = 1%nat.
Hypothesis InL0 : DL (liqC s O).
Hypothesis InS : forall i n, (n < nSol s i)%nat -> na tab i <> 1%nat -> DS i (fun j => solC s (i + 1 + j)%nat n) /\ solC s i n = sum (na tab i) (fun j => solC s (i + 1 + j)%nat n).
Notation vs := (conVars tab true s).
Hypothesis Cols : conCols = (length vs + (if imposedMode md then 1 else 0))%nat.
Notation U := (openPotential tab nuL nuS liqX liqStd solX solStd md (oMu ol)).
Notation MO := (gradHessO tab md t p conCols nuL nuS ol oe os liqX liqStd solX solStd true s).
Notation pot := (potential tab liqX liqStd solX solStd md true).
Notation ox := (oxygen tab nuL nuS).
Notation Bk := (Bk tab md t p liqX liqStd solX solStd).
Notation act := (act tab md t p liqX liqStd solX solStd).
Notation ids := (ids tab).
Notation plc := (places Id (act s) (ids s)).
Notation nuId := (nuId nuL nuS).
Notation last := (lastAmount md conCols).
Notation actL := (active (liqBlock tab md t p liqX liqStd s O)).
Notation nL := (length actL).
Notation Lsol := (Lof tab md t p nuL nuS liqX liqStd solX solStd s (idsS tab s (npc tab))).
Notation m0 := (liqC s O).

Lemma InL : hasLiquid s = true -> forall nl, (nl < nLiq s)%nat -> DL (liqC s nl).
Proof. intros _ nl H. rewrite One in H. replace nl with O by lia. exact InL0. Qed.
Lemma cols' : map pvar plc = vs.
Proof. rewrite <- HasL. apply columns; auto. Qed.
Lemma len_vs : length plc = length vs.
Proof. now rewrite <- cols', map_length. Qed.
Lemma last_eq : last = length vs.
Proof. unfold lastAmount. rewrite Cols. destruct (imposedMode md); lia. Qed.
Lemma len_split : length plc = (nL + length Lsol)%nat.
Proof. apply (len_ids tab md t p nuL nuS liqX liqStd solX solStd s One HasL). Qed.
Lemma LastOK : (nL <= last)%nat.
Proof. rewrite last_eq, <- len_vs, len_split. lia. Qed.
Lemma sim : Sim tab md t p conCols nuL nuS ol oe liqX liqStd s Lsol MO (baseHess tab md t p liqX liqStd solX solStd conCols true s).
Proof. apply oxy_sim; auto; [apply LastOK|]. rewrite last_eq, len_vs. lia. Qed.
Definition cc : nat := if imposedMode md then conCols else S (length vs).
Lemma cc_fit : (length vs < cc)%nat.
Proof. unfold cc. rewrite Cols. destruct (imposedMode md); lia. Qed.
Lemma cc_idx : tIndex md cc = tIndex md conCols.
Proof. unfold tIndex, cc. destruct (imposedMode md); reflexivity. Qed.
Lemma fit0 : forall i, tIndex md conCols = Some i -> (length plc <= i)%nat.
Proof. intros i. unfold tIndex. rewrite Cols, len_vs. destruct (imposedMode md); [|discriminate]. intros E. injection E as <-. lia. Qed.
Lemma notIdx r : (r < length vs)%nat -> isIdx (tIndex md conCols) r = false.
Proof. intros H. unfold isIdx, tIndex. rewrite Cols. destruct (imposedMode md); auto. apply Nat.eqb_neq. lia. Qed.
Lemma base0 : filled tab md t p liqX liqStd solX solStd conCols s (ids s) (baseHess tab md t p liqX liqStd solX solStd conCols true s).
Proof. rewrite <- HasL at 1. apply base_filled. apply fit0. Qed.
Notation GH := (gradHess tab md t p liqX liqStd solX solStd true cc s).
Lemma baseE r c : mE (baseHess tab md t p liqX liqStd solX solStd conCols true s) r c = mE GH r c.
Proof.
  destruct base0 as (_ & F & _). rewrite F. pose proof (gradHess_filled tab md t p liqX liqStd solX solStd cc s) as K. rewrite HasL in K.
  destruct K as (_ & F' & _); [change (length (places Id (act s) (ids s)) < cc)%nat; rewrite len_vs; apply cc_fit|]. rewrite F', cc_idx. reflexivity.
Qed.
Lemma oxyE r c : mE MO r c = mE GH r c + DE tab md t p conCols nuL nuS ol oe liqX liqStd s Lsol r c.
Proof. rewrite (simE _ _ _ _ _ _ _ _ _ _ _ _ _ _ _ sim), baseE. reflexivity. Qed.
Lemma nth_col r v : nth_error vs r = Some v -> exists d j, nth_error plc r = Some (d, j) /\ v = var d j /\ In d (ids s) /\ In j (act s d) /\ (r < length vs)%nat.
Proof.
  intros E. assert (L : (r < length vs)%nat) by (apply nth_error_Some; congruence). rewrite <- cols', nth_map in E. destruct (nth_error plc r) as [[d j]|] eqn:N; [|discriminate]. cbn in E. injection E as <-.
  exists d, j. split; auto. split; auto. split; [eapply places_in; eauto|]. split; auto.
  apply nth_error_In in N. unfold places in N. apply in_flat_map in N. destruct N as (d' & _ & N). apply in_map_iff in N. destruct N as (j' & E & N). congruence.
Qed.
(** liquid columns come first *)
Definition isLiq (d : Id) : bool := match d with IL _ => true | _ => false end.
Lemma place_case r d j : nth_error plc r = Some (d, j) ->
  (d = IL 0 /\ at_ 0 actL r = Some j) \/
  (isLiq d = false /\ at_ 0 actL r = None /\ inR tab md t p conCols liqX liqStd s r = true /\ forall x, nth (r - nL) Lsol x = nuId d j).
Proof.
  intros E. unfold HessProofs.ids, places in E. rewrite flat_map_app, (idsL_one s One HasL) in E. cbn [flat_map] in E. rewrite app_nil_r in E.
  assert (LM : length (map (pair (IL 0)) (act s (IL 0))) = nL) by apply map_length.
  destruct (Nat.lt_ge_cases r nL) as [H|H].
  - left. rewrite nth_error_app1, nth_map in E by lia. cbn [HessProofs.act HessProofs.Bk] in E. unfold at_. cbn [Nat.leb]. rewrite Nat.sub_0_r.
    destruct (nth_error actL r) as [j'|]; [|discriminate]. cbn in E. injection E as <- <-. auto.
  - right. rewrite nth_error_app2, LM in E by lia. assert (Ix : (r - nL < length (flat_map (fun d => map (pair d) (act s d)) (idsS tab s (npc tab))))%nat) by (apply nth_error_Some; congruence).
    split; [|split; [|split]].
    + assert (I : In d (idsS tab s (npc tab))) by (eapply (places_in Id (act s)); unfold places; eauto). unfold idsS in I. apply in_flat_map in I. destruct I as (i & _ & I). unfold idsP in I.
      destruct (0 <? nSol s i)%nat; [|destruct I]. destruct (na tab i =? 1)%nat; [destruct I as [<-|[]]; reflexivity|]. apply in_map_iff in I. destruct I as (n & <- & _). reflexivity.
    + apply at_out. cbn. lia.
    + apply inR_true. rewrite last_eq, <- len_vs, len_split. unfold Lof. rewrite map_length. unfold places. lia.
    + intros x. unfold Lof. pose proof (map_nth_error (nuP nuL nuS) _ _ E) as Q. apply nth_error_nth with (d := x) in Q. exact Q.
Qed.

(** *** The oxygen potential as the amounts change *)
Notation mu := (fun s' : St => oMu ol t p (liqC s' O)).
Definition dmu (d : Id) (j : nat) (m : nat -> R) : R := if isLiq d then oM ol t p m j else 0.
Lemma liq_set d j y s' : In d (ids s) -> liqC (setVar (var d j) y s') O = if isLiq d then upd (liqC s' O) j y else liqC s' O.
Proof.
  intros I. apply (in_ids tab s) in I. destruct d as [nl|i|i n]; cbn [isLiq var setVar]; [|reflexivity|reflexivity]. destruct I as [_ I]. rewrite One in I. replace nl with O by lia. reflexivity.
Qed.
Lemma liq_there d j : In d (ids s) -> In j (act s d) -> isLiq d = true -> there (nlc tab) m0 j.
Proof.
  intros I J L. pose proof (act_there' tab md t p liqX liqStd solX solStd s d j I J) as T. apply (in_ids tab s) in I. destruct d as [nl|i|i n]; try discriminate. destruct I as [_ I]. rewrite One in I. replace nl with O in T by lia. exact T.
Qed.
Lemma val_liq d j s' : In d (ids s) -> isLiq d = true -> valVar s' (var d j) = liqC s' O j.
Proof. intros I L. apply (in_ids tab s) in I. destruct d as [nl|i|i n]; try discriminate. destruct I as [_ I]. rewrite One in I. replace nl with O by lia. reflexivity. Qed.
(** at any state that differs from s in amounts only *)
Lemma open_d1 d j s' l : In d (ids s) -> In j (act s d) -> counts tab s' -> hasLiquid s' = true -> ids s' = ids s ->
  (isLiq d = true -> DL (liqC s' O) /\ there (nlc tab) (liqC s' O) j) ->
  is_derive (fun y => pot t p (setVar (var d j) y s')) (valVar s' (var d j)) l ->
  is_derive (fun y => U t p (setVar (var d j) y s')) (valVar s' (var d j)) (l - (nuId d j * mu s' + ox s' * dmu d j (liqC s' O))).
Proof.
  intros I J C H E Dm K. assert (Rj : (j < num tab d)%nat) by (eapply act_range; eauto).
  assert (N : is_derive (fun y => ox (setVar (var d j) y s')) (valVar s' (var d j)) (nuId d j)).
  { apply (is_derive_ext (fun y => ox s' + nuId d j * (y - amt s' d j))); [intros y; symmetry; apply (oxygen_set tab Lay s Cnt); auto|].
    generalize (nuId d j) (ox s') (amt s' d j) (valVar s' (var d j)). intros a b c e. auto_derive; [auto|]. match goal with |- ?a = ?b => change (@eq R a b) end. ring. }
  assert (V : is_derive (fun y => mu (setVar (var d j) y s')) (valVar s' (var d j)) (dmu d j (liqC s' O))).
  { unfold dmu. destruct (isLiq d) eqn:Ld.
    - destruct (Dm eq_refl) as [D1 D2]. rewrite (val_liq d j s' I Ld). apply (is_derive_ext (fun y => oMu ol t p (upd (liqC s' O) j y))); [intros y; now rewrite (liq_set d j y s' I), Ld|]. apply (oD1 _ _ _ OKO); auto.
    - apply (is_derive_ext (fun _ => mu s')); [intros y; now rewrite (liq_set d j y s' I), Ld|]. apply (is_derive_const (V := R_NormedModule)). }
  pose proof (is_derive_mult _ _ (valVar s' (var d j)) _ _ N V Rmult_comm) as P.
  pose proof (is_derive_minus _ _ (valVar s' (var d j)) _ _ K P) as Q. unfold openPotential. refine (is_derive_eq _ _ _ _ Q _).
  assert (Same : setVar (var d j) (valVar s' (var d j)) s' = setVar (var d j) (valVar s' (var d j)) s') by reflexivity.
  assert (O1 : ox (setVar (var d j) (valVar s' (var d j)) s') = ox s').
  { rewrite (oxygen_set tab Lay s Cnt); auto. rewrite amt_val. ring. }
  assert (O2 : oMu ol t p (liqC (setVar (var d j) (valVar s' (var d j)) s') O) = mu s').
  { rewrite (liq_set d j _ s' I). destruct (isLiq d) eqn:Ld; auto. rewrite (val_liq d j s' I Ld). f_equal. apply upd_id. }
  cbv beta in O1, O2 |- *. transitivity (l - (nuId d j * oMu ol t p (liqC (setVar (var d j) (valVar s' (var d j)) s') O) + ox (setVar (var d j) (valVar s' (var d j)) s') * dmu d j (liqC s' O))); [reflexivity|].
  rewrite O1, O2. reflexivity.
Qed.
Lemma mO2T_ox : mO2T tab nuL nuS s = ox s.
Proof. reflexivity. Qed.
Theorem C166_gradient r v : nth_error vs r = Some v -> is_derive (fun y => U t p (setVar v y s)) (valVar s v) (- mB MO r).
Proof.
  intros E. assert (E' : nth_error (conVars tab (hasLiquid s) s) r = Some v) by (rewrite HasL; exact E).
  assert (Fc0 : (length (conVars tab (hasLiquid s) s) < cc)%nat) by (rewrite HasL; apply cc_fit).
  destruct (any_gradient tab t p liqX liqStd solX solStd cc DL DS Lay Ht OKL OKS StdL StdS s Cnt InL InS Fc0 md r v E') as (d & j & N & K & _). rewrite HasL in K.
  destruct (nth_col r v E) as (d' & j' & N' & -> & I & J & L). assert (N2 : Some (d, j) = Some (d', j')) by (rewrite <- N; exact N'). injection N2 as -> ->.
  pose proof (open_d1 d' j' s (bDp (Bk s d') j') I J Cnt HasL eq_refl (fun Ld => conj InL0 (liq_there d' j' I J Ld)) K) as Q. refine (is_derive_eq _ _ _ _ Q _).
  rewrite (simB _ _ _ _ _ _ _ _ _ _ _ _ _ _ _ sim). destruct base0 as (_ & _ & F). rewrite F.
  rewrite (totB_place Id true (tIndex md conCols) (Bk s) (act s) (ids s) 0 r (d', j')); [|lia|apply notIdx; exact L|rewrite Nat.sub_0_r; exact N'].
  cbn [fst snd]. unfold rowB. unfold DB, dmu. destruct (place_case r d' j' N') as [[-> A]|(Ld & A & Rr & Nn)]; rewrite A.
  - cbn [isLiq OxyFill.nuId]. unfold oxyLiqB. rewrite mO2T_ox. destruct Md as [Em|Em]; rewrite Em; ring.
  - rewrite Rr, Ld, Nn. unfold oxySolB. destruct Md as [Em|Em]; rewrite Em; ring.
Qed.
Lemma there_val d k : In d (ids s) -> isLiq d = true -> forall x, valVar (setVar (var d k) x s) (var d k) = x.
Proof. intros _ _ x. rewrite valVar_set. destruct (var_dec (var d k) (var d k)); congruence. Qed.
Theorem C166_hessian r c v w : nth_error vs r = Some v -> nth_error vs c = Some w ->
  is_derive (fun x => Derive (fun y => U t p (setVar v y (setVar w x s))) (valVar (setVar w x s) v)) (valVar s w) (mE MO r c).
Proof.
  intros E E'. assert (Fc0 : (length (conVars tab (hasLiquid s) s) < cc)%nat) by (rewrite HasL; apply cc_fit).
  pose proof (any_hessian tab t p liqX liqStd solX solStd cc DL DS Lay Ht OKL OKS StdL StdS s Cnt InL InS Fc0 md r c v w) as K. rewrite HasL in K. specialize (K E E').
  destruct (nth_col r v E) as (d & j & N1 & -> & I & J & L). destruct (nth_col c w E') as (d' & k & N1' & -> & I' & J' & L').
  assert (Rj : (j < num tab d)%nat) by (eapply act_range; eauto). assert (Rk : (k < num tab d')%nat) by (eapply act_range; eauto).
  set (sx := fun x => setVar (var d' k) x s) in *.
  (* near s the inner derivative is the one of open_d1 *)
  apply (is_derive_ext_loc (fun x => Derive (fun y => pot t p (setVar (var d j) y (sx x))) (valVar (sx x) (var d j)) - (nuId d j * mu (sx x) + ox (sx x) * dmu d j (liqC (sx x) O)))).
  { pose proof (pot_local tab md t p liqX liqStd solX solStd DL DS Lay Ht OKL OKS StdL StdS s Cnt InL InS d j d' k I I' J J') as L1. rewrite HasL in L1.
    assert (L2 : locally (valVar s (var d' k)) (fun x => isLiq d = true -> DL (liqC (sx x) O) /\ there (nlc tab) (liqC (sx x) O) j)).
    { destruct (isLiq d) eqn:Ld; [|apply filter_forall; discriminate]. pose proof (liq_there d j I J Ld) as Tj. destruct (isLiq d') eqn:Ld'.
      - pose proof (liq_there d' k I' J' Ld') as Tk. rewrite (val_liq d' k s I' Ld'). generalize (near liqX (nlc tab) DL OKL m0 k InL0 Tk). apply filter_imp. intros x [X1 X2] _. unfold sx. rewrite (liq_set d' k x s I'), Ld'. auto.
      - apply filter_forall. intros x _. unfold sx. rewrite (liq_set d' k x s I'), Ld'. auto. }
    generalize (filter_and _ _ L1 L2). apply filter_imp. intros x [X1 X2]. symmetry. apply is_derive_unique. apply open_d1; auto.
    - unfold sx. now apply set_counts.
    - unfold sx. now rewrite set_has.
    - unfold sx. apply set_ids.
    - apply Derive_correct. exact X1. }
  assert (Nx : is_derive (fun x => ox (sx x)) (valVar s (var d' k)) (nuId d' k)).
  { apply (is_derive_ext (fun y => ox s + nuId d' k * (y - amt s d' k))); [intros y; symmetry; apply (oxygen_set tab Lay s Cnt); auto|].
    generalize (nuId d' k) (ox s) (amt s d' k) (valVar s (var d' k)). intros a b e f. auto_derive; [auto|]. match goal with |- ?a = ?b => change (@eq R a b) end. ring. }
  assert (Vx : is_derive (fun x => mu (sx x)) (valVar s (var d' k)) (dmu d' k m0)).
  { unfold dmu. destruct (isLiq d') eqn:Ld.
    - pose proof (liq_there d' k I' J' Ld). rewrite (val_liq d' k s I' Ld). apply (is_derive_ext (fun y => oMu ol t p (upd m0 k y))); [intros y; unfold sx; now rewrite (liq_set d' k y s I'), Ld|]. apply (oD1 _ _ _ OKO); auto.
    - apply (is_derive_ext (fun _ => mu s)); [intros y; unfold sx; now rewrite (liq_set d' k y s I'), Ld|]. apply (is_derive_const (V := R_NormedModule)). }
  set (dd := if isLiq d && isLiq d' then oMM ol t p m0 j k else 0).
  assert (Wx : is_derive (fun x => dmu d j (liqC (sx x) O)) (valVar s (var d' k)) dd).
  { unfold dmu, dd. destruct (isLiq d) eqn:Ld; cbn [andb]; [|apply (is_derive_const (V := R_NormedModule))]. pose proof (liq_there d j I J Ld). destruct (isLiq d') eqn:Ld'.
    - pose proof (liq_there d' k I' J' Ld'). rewrite (val_liq d' k s I' Ld'). apply (is_derive_ext (fun y => oM ol t p (upd m0 k y) j)); [intros y; unfold sx; now rewrite (liq_set d' k y s I'), Ld'|]. apply (oD2 _ _ _ OKO); auto.
    - apply (is_derive_ext (fun _ => oM ol t p m0 j)); [intros y; unfold sx; now rewrite (liq_set d' k y s I'), Ld'|]. apply (is_derive_const (V := R_NormedModule)). }
  pose proof (is_derive_scal _ (valVar s (var d' k)) (nuId d j) _ Vx) as P1. pose proof (is_derive_mult _ _ (valVar s (var d' k)) _ _ Nx Wx Rmult_comm) as P2.
  pose proof (is_derive_plus _ _ (valVar s (var d' k)) _ _ P1 P2) as P3. pose proof (is_derive_minus _ _ (valVar s (var d' k)) _ _ K P3) as P4.
  refine (is_derive_eq _ _ _ _ P4 _). clear P4 P3 P2 P1 K.
  assert (O1 : ox (sx (valVar s (var d' k))) = ox s) by (unfold sx; rewrite (oxygen_set tab Lay s Cnt), amt_val; auto; ring).
  assert (O2 : liqC (sx (valVar s (var d' k))) O = m0) by (unfold sx; rewrite (liq_set d' k _ s I'); destruct (isLiq d') eqn:Ld; auto; rewrite (val_liq d' k s I' Ld); apply upd_id).
  transitivity (mE GH r c - (nuId d j * dmu d' k m0 + (nuId d' k * dmu d j (liqC (sx (valVar s (var d' k))) O) + ox (sx (valVar s (var d' k))) * dd))); [reflexivity|].
  rewrite O1, O2. rewrite oxyE. unfold DE, dmu, dd.
  destruct (place_case r d j N1) as [[-> A]|(Ld & A & Rr & Nn)]; destruct (place_case c d' k N1') as [[-> A']|(Ld' & A' & Rr' & Nn')]; rewrite A, A'.
  - cbn [isLiq OxyFill.nuId andb]. unfold oxyLiqE. rewrite mO2T_ox. ring.
  - rewrite Ld', Rr', Nn'. cbn [isLiq andb]. ring.
  - rewrite Ld, Rr, Nn. cbn [isLiq andb]. ring.
  - rewrite Ld, Ld'. cbn [andb]. rewrite Rr, Rr', !andb_true_r. rewrite (notIdx r L), (notIdx c L'). cbn [andb]. ring.
Qed.

(** *** At constant volume the last variable is the pressure *)
Section Pressure.
Hypothesis Iso : md = Isochoric.
Notation z := (length vs).
Lemma imp1 : imposedMode md = true.
Proof. now rewrite Iso. Qed.
Lemma z_cc : (cc - 1)%nat = z.
Proof. unfold cc. rewrite Cols, imp1. lia. Qed.
Lemma z_idx : isIdx (tIndex md conCols) z = true.
Proof. unfold isIdx, tIndex. rewrite Cols, imp1. apply Nat.eqb_eq. lia. Qed.
Lemma z_at : at_ 0 actL z = None.
Proof. apply at_out. pose proof LastOK as H. rewrite last_eq in H. exact H. Qed.
Lemma z_inR : inR tab md t p conCols liqX liqStd s z = false.
Proof. destruct (inR tab md t p conCols liqX liqStd s z) eqn:E; auto. apply inR_true in E. rewrite last_eq in E. lia. Qed.
Lemma baseB r : mB (baseHess tab md t p liqX liqStd solX solStd conCols true s) r = mB GH r.
Proof.
  destruct base0 as (_ & _ & F). rewrite F. pose proof (gradHess_filled tab md t p liqX liqStd solX solStd cc s) as K. rewrite HasL in K.
  destruct K as (_ & _ & F'); [change (length (places Id (act s) (ids s)) < cc)%nat; rewrite len_vs; apply cc_fit|]. rewrite F', cc_idx, imp1. reflexivity.
Qed.
Lemma at_p x s' : potential tab liqX liqStd solX solStd md true (atT md t x) (atP md p x) s' = pot t x s'.
Proof. now rewrite Iso. Qed.
Lemma tau_p : tauOf md t p = p.
Proof. now rewrite Iso. Qed.
Lemma Fc1 : (length (conVars tab (hasLiquid s) s) < cc)%nat.
Proof. rewrite HasL. apply cc_fit. Qed.
Lemma Np : md <> Plain.
Proof. rewrite Iso. discriminate. Qed.
Lemma potAt_p x s' : potAt tab t p liqX liqStd solX solStd s md x s' = pot t x s'.
Proof. unfold potAt. now rewrite Iso, HasL. Qed.
Lemma last_p : lastValue t p md = p.
Proof. unfold lastValue. now rewrite Iso. Qed.
Lemma open_p x0 s' l : DL (liqC s' O) -> is_derive (fun x => pot t x s') x0 l -> is_derive (fun x => U t x s') x0 (l - ox s' * oP ol t x0 (liqC s' O)).
Proof.
  intros D0 K. pose proof (is_derive_scal _ x0 (ox s') _ (oDp _ _ _ OKO t x0 (liqC s' O) Ht D0)) as P. exact (is_derive_minus _ _ x0 _ _ K P).
Qed.
Theorem C166_pressure_gradient : is_derive (fun x => U t x s) p (- mB MO z).
Proof.
  pose proof (C91_last_gradient tab t p liqX liqStd solX solStd cc DL DS Lay Ht OKL OKS StdL StdS s Cnt InL InS Fc1 md Np) as K. rewrite last_p, HasL, z_cc in K.
  pose proof (is_derive_ext _ _ _ _ (fun x => potAt_p x s) K) as K'. refine (is_derive_eq _ _ _ _ (open_p p s _ InL0 K') _).
  rewrite (simB _ _ _ _ _ _ _ _ _ _ _ _ _ _ _ sim), baseB. unfold DB. rewrite z_at, z_inR, z_idx. unfold lastB, oxyLastB. rewrite Iso, mO2T_ox. ring.
Qed.
Theorem C166_pressure_hessian : is_derive (fun x => Derive (fun x => U t x s) x) p (mE MO z z).
Proof.
  pose proof (C91_last_hessian tab t p liqX liqStd solX solStd cc DL DS Lay Ht OKL OKS StdL StdS s Cnt InL InS Fc1 md Np) as K. rewrite last_p, HasL, z_cc in K.
  assert (K' : is_derive (fun x => Derive (fun x => pot t x s) x) p (mE GH z z)).
  { refine (is_derive_ext _ _ _ _ _ K). intros x. apply Derive_ext. intros y. apply potAt_p. }
  apply (is_derive_ext_loc (fun x => Derive (fun x => pot t x s) x - ox s * oP ol t x m0)).
  - pose proof (pot_local_tt tab md t p liqX liqStd solX solStd DL DS Lay Ht OKL OKS StdL StdS s Cnt InL InS Np) as L. rewrite HasL, tau_p in L. revert L. apply filter_imp. intros x X.
    symmetry. apply is_derive_unique. apply open_p; auto. apply Derive_correct. revert X. apply ex_derive_ext. intros y. apply at_p.
  - pose proof (is_derive_scal _ p (ox s) _ (oDpp _ _ _ OKO t p m0 Ht InL0)) as P. refine (is_derive_eq _ _ _ _ (is_derive_minus _ _ p _ _ K' P) _).
    transitivity (mE GH z z - ox s * oPP ol t p m0); [reflexivity|]. rewrite oxyE. unfold DE. rewrite z_at, z_inR, z_idx. cbn [andb]. unfold lastE, oxyLastE. rewrite Iso, mO2T_ox. ring.
Qed.
Theorem C166_pressure_mixed r v : nth_error vs r = Some v ->
  is_derive (fun y => Derive (fun x => U t x (setVar v y s)) p) (valVar s v) (mE MO r z) /\ mE MO z r = mE MO r z.
Proof.
  intros E. assert (E' : nth_error (conVars tab (hasLiquid s) s) r = Some v) by (rewrite HasL; exact E).
  destruct (C91_mixed tab t p liqX liqStd solX solStd cc DL DS Lay Ht OKL OKS StdL StdS s Cnt InL InS Fc1 md Np r v E') as [K S0]. rewrite last_p, HasL, z_cc in K. rewrite HasL, z_cc in S0.
  destruct (nth_col r v E) as (d & j & N1 & -> & I & J & L). assert (Rj : (j < num tab d)%nat) by (eapply act_range; eauto).
  assert (K' : is_derive (fun y => Derive (fun x => pot t x (setVar (var d j) y s)) p) (valVar s (var d j)) (mE GH r z)).
  { refine (is_derive_ext _ _ _ _ _ K). intros x. apply Derive_ext. intros y. apply potAt_p. }
  set (sx := fun x => setVar (var d j) x s) in *.
  assert (Eq : mE MO r z = mE GH r z - (nuId d j * oP ol t p m0 + ox s * (if isLiq d then oMP ol t p m0 j else 0)) /\ mE MO z r = mE MO r z).
  { rewrite !oxyE, S0. unfold DE. rewrite z_at, z_inR, z_idx. rewrite (notIdx r L). destruct (place_case r d j N1) as [[-> A]|(Ld & A & Rr & Nn)]; rewrite A.
    - cbn [isLiq OxyFill.nuId]. unfold oxyLiqX. rewrite Iso, mO2T_ox. split; ring.
    - rewrite Rr, Ld, !Nn. cbn [andb]. unfold oxySolX. rewrite Iso. split; ring. }
  destruct Eq as [Eq1 Eq2]. split; [|exact Eq2]. rewrite Eq1.
  apply (is_derive_ext_loc (fun y => Derive (fun x => pot t x (sx y)) p - ox (sx y) * oP ol t p (liqC (sx y) O))).
  - pose proof (pot_local_t tab md t p liqX liqStd solX solStd DL DS Lay Ht OKL OKS StdL StdS s Cnt InL InS d j Np I J) as L1. rewrite HasL, tau_p in L1.
    assert (L2 : locally (valVar s (var d j)) (fun x => DL (liqC (sx x) O))).
    { destruct (isLiq d) eqn:Ld.
      - pose proof (liq_there d j I J Ld) as Tj. rewrite (val_liq d j s I Ld). generalize (near liqX (nlc tab) DL OKL m0 j InL0 Tj). apply filter_imp. intros x [X1 X2]. unfold sx. rewrite (liq_set d j x s I), Ld. auto.
      - apply filter_forall. intros x. unfold sx. rewrite (liq_set d j x s I), Ld. auto. }
    generalize (filter_and _ _ L1 L2). apply filter_imp. intros y [X1 X2]. symmetry. apply is_derive_unique. apply open_p; auto. apply Derive_correct. revert X1. apply ex_derive_ext. intros x. apply at_p.
  - assert (Nx : is_derive (fun x => ox (sx x)) (valVar s (var d j)) (nuId d j)).
    { apply (is_derive_ext (fun y => ox s + nuId d j * (y - amt s d j))); [intros y; symmetry; apply (oxygen_set tab Lay s Cnt); auto|].
      generalize (nuId d j) (ox s) (amt s d j) (valVar s (var d j)). intros a b e f. auto_derive; [auto|]. match goal with |- ?a = ?b => change (@eq R a b) end. ring. }
    assert (Wx : is_derive (fun x => oP ol t p (liqC (sx x) O)) (valVar s (var d j)) (if isLiq d then oMP ol t p m0 j else 0)).
    { destruct (isLiq d) eqn:Ld.
      - pose proof (liq_there d j I J Ld). rewrite (val_liq d j s I Ld). apply (is_derive_ext (fun y => oP ol t p (upd m0 j y))); [intros y; unfold sx; now rewrite (liq_set d j y s I), Ld|]. apply (oDmp _ _ _ OKO); auto.
      - apply (is_derive_ext (fun _ => oP ol t p m0)); [intros y; unfold sx; now rewrite (liq_set d j y s I), Ld|]. apply (is_derive_const (V := R_NormedModule)). }
    pose proof (is_derive_mult _ _ (valVar s (var d j)) _ _ Nx Wx Rmult_comm) as P. refine (is_derive_eq _ _ _ _ (is_derive_minus _ _ (valVar s (var d j)) _ _ K' P) _).
    assert (O1 : ox (sx (valVar s (var d j))) = ox s) by (unfold sx; rewrite (oxygen_set tab Lay s Cnt), amt_val; auto; ring).
    assert (O2 : liqC (sx (valVar s (var d j))) O = m0) by (unfold sx; rewrite (liq_set d j _ s I); destruct (isLiq d) eqn:Ld; auto; rewrite (val_liq d j s I Ld); apply upd_id).
    transitivity (mE GH r z - (nuId d j * oP ol t p (liqC (sx (valVar s (var d j))) O) + ox (sx (valVar s (var d j))) * (if isLiq d then oMP ol t p m0 j else 0))); [reflexivity|]. rewrite O1, O2. reflexivity.
Qed.
End Pressure.
End C166.
