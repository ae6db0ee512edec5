(** From the blocks to the matrices of a state. *)
From Coq Require Import Reals List Lia Lra Bool Arith FinFun FunctionalExtensionality.
From Coquelicot Require Import Coquelicot.
From Verif Require Import MassModel MassSpec MassProofs RealTac StepModel StepProofs HessModel HessFill HessGen HessSpec HessPhase HessBlock.
Import List ListNotations.
Open Scope R_scope.

Inductive Id : Type := IL (nl : nat) | IP (i : nat) | IS (i n : nat).
Definition id_dec (a b : Id) : {a = b} + {a <> b}.
Proof. decide equality; apply Nat.eq_dec. Defined.
Definition var (d : Id) (j : nat) : Var := match d with IL nl => VLiq nl j | IP i => VSol i 0 | IS i n => VSol (i + 1 + j) n end.

Section State.
Variable tab : Tab.
Variable md : Mode.
Variables t p : R.
Variable liqX : Mixing.
Variable liqStd : nat -> Std.
Variable solX : nat -> Mixing.
Variable solStd : nat -> Std.
Variable conCols : nat.
Variable DL : (nat -> R) -> Prop.
Variable DS : nat -> (nat -> R) -> Prop.
Hypothesis Lay : layout tab.
Hypothesis Ht : 0 < t.
Notation idx := (tIndex md conCols).
Notation nonLinear := (imposedMode md).

Definition num (d : Id) : nat := match d with IL _ => nlc tab | IP _ => 1%nat | IS i _ => na tab i end.
Definition amt (s : St) (d : Id) (j : nat) : R := match d with IL nl => liqC s nl j | IP i => solC s i 0%nat | IS i n => solC s (i + 1 + j)%nat n end.
Definition Bk (s : St) (d : Id) : Block :=
  match d with
  | IL nl => liqBlock tab md t p liqX liqStd s nl
  | IP i => pureBlock md t p (solStd i) (fun _ => solC s i O)
  | IS i n => solBlock tab md t p solX solStd s i n
  end.
Definition act (s : St) (d : Id) : list nat := match d with IP _ => [O] | _ => active (Bk s d) end.
Definition phi (d : Id) (m : nat -> R) (tau : R) : R :=
  match d with
  | IL _ => phiM md liqX (nlc tab) liqStd t p m tau
  | IP i => phiP md (solStd i) t p m tau
  | IS i _ => phiM md (solX i) (na tab i) (fun j => solStd (i + 1 + j)%nat) t p m tau
  end.
Definition idsL (s : St) : list Id := if hasLiquid s then map IL (seq 0 (nLiq s)) else [].
Definition idsP (s : St) (i : nat) : list Id :=
  if Nat.ltb 0 (nSol s i) then if Nat.eqb (na tab i) 1 then [IP i] else map (IS i) (seq 0 (nSol s i)) else [].
Definition idsS (s : St) (k : nat) : list Id := flat_map (idsP s) (seq 0 k).
Definition ids (s : St) : list Id := idsL s ++ idsS s (npc tab).
Notation plc s l := (places Id (act s) l).

(** ** The loops *)
Section Loops.
Variable s : St.
Definition filled (l : list Id) (M : Mats) : Prop :=
  colRow M = length (plc s l) /\ (forall r c, mE M r c = totE Id idx (Bk s) (act s) l 0 r c) /\ (forall r, mB M r = totB Id nonLinear idx (Bk s) (act s) l 0 r).
Lemma totE_app l l' : forall base r c, totE Id idx (Bk s) (act s) (l ++ l') base r c = totE Id idx (Bk s) (act s) l base r c + totE Id idx (Bk s) (act s) l' (base + length (plc s l)) r c.
Proof.
  induction l as [|d l IH]; intros base r c; [change (totE Id idx (Bk s) (act s) l' base r c = 0 + totE Id idx (Bk s) (act s) l' (base + 0) r c); rewrite Nat.add_0_r; ring|].
  cbn [app totE]. rewrite IH. unfold places. cbn [flat_map]. rewrite app_length, map_length, Nat.add_assoc. ring.
Qed.
Lemma totB_app l l' : forall base r, totB Id nonLinear idx (Bk s) (act s) (l ++ l') base r = totB Id nonLinear idx (Bk s) (act s) l base r + totB Id nonLinear idx (Bk s) (act s) l' (base + length (plc s l)) r.
Proof.
  induction l as [|d l IH]; intros base r; [change (totB Id nonLinear idx (Bk s) (act s) l' base r = 0 + totB Id nonLinear idx (Bk s) (act s) l' (base + 0) r); rewrite Nat.add_0_r; ring|].
  cbn [app totB]. rewrite IH. unfold places. cbn [flat_map]. rewrite app_length, map_length, Nat.add_assoc. ring.
Qed.
Lemma places_app l l' : plc s (l ++ l') = plc s l ++ plc s l'.
Proof. unfold places. apply flat_map_app. Qed.
Lemma places_one d : length (plc s [d]) = length (act s d).
Proof. unfold places. cbn [flat_map]. now rewrite app_nil_r, map_length. Qed.
Lemma filled_snoc l d M M' : filled l M ->
  colRow M' = (colRow M + length (act s d))%nat /\ (forall r c, mE M' r c = mE M r c + wholeE idx (Bk s d) (act s d) (colRow M) r c) /\
  (forall r, mB M' r = mB M r + wholeB nonLinear idx (Bk s d) (act s d) (colRow M) r) -> filled (l ++ [d]) M'.
Proof.
  intros (F1 & F2 & F3) (K1 & K2 & K3). split; [|split].
  - rewrite K1, F1, places_app, app_length, places_one. reflexivity.
  - intros r c. rewrite K2, F2, totE_app. cbn [totE]. rewrite F1, Nat.add_0_l. ring.
  - intros r. rewrite K3, F3, totB_app. cbn [totB]. rewrite F1, Nat.add_0_l. ring.
Qed.
Hypothesis Fit : (length (plc s (ids s)) < conCols)%nat.
Lemma fits_prefix l l' : ids s = l ++ l' -> forall i, idx = Some i -> (length (plc s l) <= i)%nat.
Proof.
  intros E i Hi. unfold tIndex in Hi. destruct nonLinear; [|discriminate]. injection Hi as <-. rewrite E, places_app, app_length in Fit. lia.
Qed.
Lemma step_filled l d l' M M' : ids s = l ++ [d] ++ l' -> filled l M ->
  M' = match d with IP _ => fillPure idx (Bk s d) M | _ => fillMix nonLinear idx (Bk s d) M end -> filled (l ++ [d]) M'.
Proof.
  intros E F ->. apply (filled_snoc l d M _ F).
  assert (B : forall i, idx = Some i -> (colRow M + length (act s d) <= i)%nat).
  { intros i Hi. destruct F as [-> _]. pose proof (fits_prefix (l ++ [d]) l') as Q. rewrite <- app_assoc in Q. specialize (Q E i Hi). rewrite places_app, app_length, places_one in Q. exact Q. }
  destruct d as [nl|i|i n]; cbn [act] in *.
  - apply fillMix_spec. exact B.
  - apply fillPure_spec; [intros; apply pure_D2|exact B].
  - apply fillMix_spec. exact B.
Qed.
Lemma seq_split n k : (k < n)%nat -> seq 0 n = seq 0 k ++ [k] ++ seq (S k) (n - S k).
Proof. intros H. replace n with (k + (1 + (n - S k)))%nat at 1 by lia. rewrite !seq_app. cbn [seq Nat.add app]. replace (k + 1)%nat with (S k) by lia. reflexivity. Qed.
Lemma run_map {A} (f : A -> Id) (g : A -> Mats -> Mats) (els : nat -> A) (cnt : nat) l0 l1 M0 :
  (forall k M, (k < cnt)%nat -> g (els k) M = match f (els k) with IP _ => fillPure idx (Bk s (f (els k))) M | _ => fillMix nonLinear idx (Bk s (f (els k))) M end) ->
  ids s = l0 ++ map (fun k => f (els k)) (seq 0 cnt) ++ l1 -> filled l0 M0 ->
  filled (l0 ++ map (fun k => f (els k)) (seq 0 cnt)) (loop cnt (fun k M => g (els k) M) M0).
Proof.
  intros G E F. apply (loop_inv (fun k M => filled (l0 ++ map (fun k => f (els k)) (seq 0 k)) M)).
  - cbn. now rewrite app_nil_r.
  - intros k M Hk FM. rewrite seq_S, map_app, app_assoc. cbn [map Nat.add]. eapply (step_filled _ _ (map (fun k => f (els k)) (seq (S k) (cnt - S k)) ++ l1)); [|exact FM|apply G; auto].
    rewrite E, (seq_split cnt k Hk), !map_app. cbn [map]. now rewrite <- !app_assoc.
Qed.
Lemma idsS_split k : (k < npc tab)%nat -> exists l, idsS s (npc tab) = idsS s k ++ idsP s k ++ l.
Proof. intros H. unfold idsS. rewrite (seq_split (npc tab) k H), !flat_map_app. cbn [flat_map]. rewrite app_nil_r. eexists. reflexivity. Qed.
Theorem gradHess_filled : filled (ids s) (gradHess tab md t p liqX liqStd solX solStd (hasLiquid s) conCols s).
Proof.
  unfold gradHess. cbv zeta. unfold ids.
  apply (loop_inv (fun k M => filled (idsL s ++ idsS s k) M)).
  - unfold idsS. cbn [seq flat_map]. rewrite app_nil_r.
    assert (F0 : filled [] (mkMats (fun _ _ => 0) (fun _ => 0) 0)) by (split; [reflexivity|split; reflexivity]).
    unfold idsL. destruct (hasLiquid s) eqn:HL; [|exact F0].
    apply (run_map (fun k : nat => IL k) (fun l => fillMix nonLinear idx (liqBlock tab md t p liqX liqStd s l)) (fun k => k) (nLiq s) [] (idsS s (npc tab))); auto.
    unfold ids, idsL. now rewrite HL.
  - intros k M Hk FM. unfold idsS. rewrite seq_S, flat_map_app. cbn [Nat.add flat_map]. rewrite app_nil_r. fold (idsS s k). rewrite app_assoc.
    destruct (idsS_split k Hk) as [l El]. assert (E : ids s = (idsL s ++ idsS s k) ++ idsP s k ++ l) by (unfold ids; rewrite El, !app_assoc; reflexivity).
    unfold idsP in *. destruct (Nat.ltb 0 (nSol s k)); [|now rewrite app_nil_r]. destruct (Nat.eqb (na tab k) 1).
    + eapply step_filled; [exact E|exact FM|reflexivity].
    + apply (run_map (fun n : nat => IS k n) (fun n => fillMix nonLinear idx (solBlock tab md t p solX solStd s k n)) (fun n => n) (nSol s k) _ l); auto.
Qed.
End Loops.

(** ** Columns *)
Section Cols.
Variable s : St.
Hypothesis Cnt : counts tab s.
Lemma in_ids d : In d (ids s) -> match d with
  | IL nl => hasLiquid s = true /\ (nl < nLiq s)%nat
  | IP i => (i < npc tab)%nat /\ (0 < nSol s i)%nat /\ na tab i = 1%nat
  | IS i n => (i < npc tab)%nat /\ (n < nSol s i)%nat /\ na tab i <> 1%nat end.
Proof.
  unfold ids, idsL, idsS. intros I. apply in_app_or in I. destruct I as [I|I].
  - destruct (hasLiquid s) eqn:HL; [|destruct I]. apply in_map_iff in I. destruct I as (nl & <- & I). apply in_seq in I. split; auto. lia.
  - apply in_flat_map in I. destruct I as (i & Hi & I). apply in_seq in Hi. unfold idsP in I. destruct (Nat.ltb_spec 0 (nSol s i)); [|destruct I]. destruct (Nat.eqb_spec (na tab i) 1).
    + destruct I as [<-|[]]. repeat split; auto; lia.
    + apply in_map_iff in I. destruct I as (n0 & <- & I). apply in_seq in I. repeat split; auto; lia.
Qed.
Lemma ids_NoDup : NoDup (ids s).
Proof.
  assert (App : forall (A : Type) (l l' : list A), NoDup l -> NoDup l' -> (forall x, In x l -> In x l' -> False) -> NoDup (l ++ l')).
  { intros A l l' H1 H2 H3. induction H1 as [|x l Hx H1 IH]; cbn; auto. constructor; [|apply IH; intros; eapply H3; eauto; now right]. intros I. apply in_app_or in I. destruct I; [contradiction|eapply H3; eauto; now left]. }
  assert (Inj : forall (f : nat -> Id) n, (forall a b, f a = f b -> a = b) -> NoDup (map f (seq 0 n))) by (intros f n H; apply FinFun.Injective_map_NoDup; [intros a b; apply H|apply seq_NoDup]).
  unfold ids. apply App.
  - unfold idsL. destruct (hasLiquid s); [apply Inj; congruence|constructor].
  - assert (H : forall k j, NoDup (flat_map (idsP s) (seq j k)) /\ forall d, In d (flat_map (idsP s) (seq j k)) -> match d with IL _ => False | IP i => (j <= i)%nat | IS i _ => (j <= i)%nat end).
    { induction k; intros j; [split; [constructor|intros d []]|]. cbn [seq flat_map]. destruct (IHk (S j)) as [N1 N2].
      assert (Own : forall d, In d (idsP s j) -> d = IP j \/ exists n, d = IS j n).
      { intros d I. unfold idsP in I. destruct (Nat.ltb 0 (nSol s j)); [|destruct I]. destruct (Nat.eqb (na tab j) 1); [destruct I as [<-|[]]; auto|]. apply in_map_iff in I. destruct I as (n & <- & _). right. now exists n. }
      split.
      - apply App; auto.
        + unfold idsP. destruct (Nat.ltb 0 (nSol s j)); [|constructor]. destruct (Nat.eqb (na tab j) 1); [constructor; [intros []|constructor]|]. apply Inj. congruence.
        + intros d I1 I2. apply N2 in I2. destruct (Own d I1) as [->|[n ->]]; lia.
      - intros d I. apply in_app_or in I. destruct I as [I|I]; [destruct (Own d I) as [->|[n ->]]; lia|]. apply N2 in I. destruct d; auto; lia. }
    apply H.
  - intros d I1 I2. unfold idsL in I1. destruct (hasLiquid s); [|destruct I1]. apply in_map_iff in I1. destruct I1 as (nl & <- & _).
    unfold idsS in I2. apply in_flat_map in I2. destruct I2 as (i & _ & I2). unfold idsP in I2. destruct (Nat.ltb 0 (nSol s i)); [|destruct I2]. destruct (Nat.eqb (na tab i) 1); [destruct I2 as [I2|[]]; discriminate|].
    apply in_map_iff in I2. destruct I2 as (n & I2 & _). discriminate.
Qed.
Lemma act_range d j : In j (act s d) -> (j < num d)%nat.
Proof.
  destruct d as [nl|i|i n]; cbn [act num]; intros I.
  - apply act_there in I. apply I.
  - destruct I as [<-|[]]. lia.
  - apply act_there in I. apply I.
Qed.
Lemma act_filter d : (forall i, d <> IP i) -> act s d = filter (fun j => present s (var d j)) (seq 0 (num d)).
Proof.
  intros N. destruct d as [nl|i|i n]; [|congruence|]; cbn [act]; unfold active, upto; cbn [Bk num].
  - unfold liqBlock at 2. rewrite B_n. apply filter_ext. intros j. unfold isActive, liqBlock. rewrite B_m. unfold present, var, zeroR. destruct (Req_EM_T (liqC s nl j) 0); reflexivity.
  - unfold solBlock at 2. rewrite B_n. apply filter_ext. intros j. unfold isActive, solBlock. rewrite B_m. unfold present, var, zeroR. destruct (Req_EM_T (solC s (i + 1 + j) n) 0); reflexivity.
Qed.
Lemma only_filter (f : nat -> Var) l : flat_map (fun j => onlyPresent s (f j)) l = map f (filter (fun j => present s (f j)) l).
Proof. induction l as [|a l IH]; cbn; auto. unfold onlyPresent at 1. rewrite IH. destruct (present s (f a)); reflexivity. Qed.
Definition pvar (a : Id * nat) : Var := var (fst a) (snd a).
Lemma flat_map_map {A B C} (f : A -> B) (g : B -> list C) l : flat_map g (map f l) = flat_map (fun a => g (f a)) l.
Proof. induction l; cbn; congruence. Qed.
Lemma map_places l : map pvar (plc s l) = flat_map (fun d => map (var d) (act s d)) l.
Proof. unfold places. induction l as [|d l IH]; cbn; auto. rewrite map_app, IH, map_map. reflexivity. Qed.
Theorem columns : map pvar (plc s (ids s)) = conVars tab (hasLiquid s) s.
Proof.
  rewrite (conVars_vars tab Lay s Cnt), map_places. unfold ids, vars. rewrite flat_map_app. f_equal.
  - unfold idsL, liqVars. destruct (hasLiquid s); auto. rewrite flat_map_map. apply flat_map_ext. intros nl. unfold cellsL. rewrite act_filter by discriminate. symmetry. apply (only_filter (VLiq nl)).
  - unfold idsS, solVars. generalize (seq 0 (npc tab)). intros L. induction L as [|i L IH]; auto. cbn [flat_map]. rewrite flat_map_app, IH. f_equal.
    unfold idsP, phaseVars. destruct (Nat.ltb_spec 0 (nSol s i)) as [P|P]; [|replace (nSol s i) with 0%nat by lia; reflexivity].
    destruct (Nat.eqb_spec (na tab i) 1) as [E|E].
    + destruct Cnt as (_ & C2 & _). specialize (C2 i E). replace (nSol s i) with 1%nat by lia. cbn. unfold cellsS. now rewrite E.
    + rewrite flat_map_map. apply flat_map_ext. intros n. rewrite act_filter by discriminate. unfold cellsS. apply Nat.eqb_neq in E. rewrite E. symmetry. apply (only_filter (fun k => VSol (i + 1 + k) n)).
Qed.
Lemma var_inj d j d' k : In d (ids s) -> In d' (ids s) -> (j < num d)%nat -> (k < num d')%nat -> var d j = var d' k -> d = d' /\ j = k.
Proof.
  intros I I' Hj Hk E. apply in_ids in I. apply in_ids in I'.
  assert (Ph : forall i, (0 < nSol s i)%nat -> isPhase tab i = true) by (intros i Hi; apply (counted_phase tab s Cnt i Hi)).
  assert (Off : forall i a, (i < npc tab)%nat -> (0 < nSol s i)%nat -> na tab i <> 1%nat -> (1 <= a <= na tab i)%nat -> nSol s (i + a) = O).
  { intros i a H1 H2 H3 H4. destruct (Lay i H1 (Ph i H2)) as [L1 L2]. destruct (L2 ltac:(lia)) as [_ L3]. destruct Cnt as (C1 & _). apply C1, L3. auto. }
  destruct d as [nl|i|i n]; destruct d' as [nl'|i'|i' n']; cbn [var num] in *; try discriminate; injection E as E1.
  - subst. auto.
  - subst i'. split; auto. lia.
  - exfalso. destruct I as (A1 & A2 & A3), I' as (B1 & B2 & B3). specialize (Off i' (1 + k)%nat B1 ltac:(lia) B3 ltac:(lia)). replace (i' + (1 + k))%nat with i in Off by lia. lia.
  - exfalso. destruct I as (A1 & A2 & A3), I' as (B1 & B2 & B3). specialize (Off i (1 + j)%nat A1 ltac:(lia) A3 ltac:(lia)). replace (i + (1 + j))%nat with i' in Off by lia. lia.
  - destruct I as (A1 & A2 & A3), I' as (B1 & B2 & B3). subst n'.
    destruct (Nat.lt_trichotomy i i') as [L|[->|L]].
    + exfalso. specialize (Off i (i' - i)%nat A1 ltac:(lia) A3 ltac:(lia)). replace (i + (i' - i))%nat with i' in Off by lia. lia.
    + split; auto. lia.
    + exfalso. specialize (Off i' (i - i')%nat B1 ltac:(lia) B3 ltac:(lia)). replace (i' + (i - i'))%nat with i in Off by lia. lia.
Qed.
End Cols.

(** ** The energy of the system is the sum over the blocks *)
Notation pot := (potential tab liqX liqStd solX solStd md).
Definition tot (d : Id) (s : St) (F : Mixing -> R -> R -> (nat -> R) -> R) (q : Std -> R -> R -> R) (tt pp : R) : R :=
  match d with
  | IL nl => mixTotal (nlc tab) (xR liqX) (F liqX tt pp) (fun j => q (liqStd j) tt pp) (amt s d)
  | IP i => amt s d O * q (solStd i) tt pp
  | IS i n => mixTotal (na tab i) (xR (solX i)) (F (solX i) tt pp) (fun j => q (solStd (i + 1 + j)%nat) tt pp) (amt s d)
  end.
Notation sumId := (sumL Id).
Lemma sumL_seq (f : Id -> R) (g : nat -> Id) k : sumId f (map g (seq 0 k)) = sum k (fun i => f (g i)).
Proof. induction k; [reflexivity|]. rewrite seq_S, map_app, sumL_app. cbn [Nat.add map sum]. rewrite IHk, sumL_cons. unfold sumL. cbn. ring. Qed.
Lemma property_sum F q s tt pp : counts tab s ->
  property tab liqX liqStd solX solStd F q (hasLiquid s) tt pp s = sumId (fun d => tot d s F q tt pp) (ids s).
Proof.
  intros Cnt. unfold property, ids. rewrite sumL_app. f_equal.
  - unfold idsL. destruct (hasLiquid s); [|reflexivity]. rewrite sumL_seq. apply sum_ext. intros nl _. unfold tot. reflexivity.
  - unfold idsS. induction (npc tab) as [|k IH]; [reflexivity|]. cbn [sum]. rewrite IH, seq_S, flat_map_app, sumL_app. f_equal. cbn [Nat.add flat_map]. rewrite app_nil_r.
    unfold idsP. destruct (Nat.ltb_spec 0 (nSol s k)) as [P|P]; [|replace (nSol s k) with 0%nat by lia; reflexivity].
    destruct (Nat.eqb_spec (na tab k) 1) as [E|E].
    + destruct Cnt as (_ & C2 & _). specialize (C2 k E). replace (nSol s k) with 1%nat by lia. cbn [sum]. rewrite sumL_cons. unfold sumL. cbn. ring.
    + rewrite sumL_seq. apply sum_ext. intros n _. unfold tot. reflexivity.
Qed.
Lemma sumL_plus f g l : sumId f l + sumId g l = sumId (fun d => f d + g d) l.
Proof. induction l as [|d l IH]; [unfold sumL; cbn; ring|]. rewrite !sumL_cons, <- IH. ring. Qed.
Lemma sumL_scal a f l : a * sumId f l = sumId (fun d => a * f d) l.
Proof. induction l as [|d l IH]; [unfold sumL; cbn; ring|]. rewrite !sumL_cons, <- IH. ring. Qed.
Lemma pot_sum s tau : counts tab s -> pot (hasLiquid s) (atT md t tau) (atP md p tau) s = sumId (fun d => phi d (amt s d) tau) (ids s).
Proof.
  intros Cnt. set (T := atT md t tau). set (P := atP md p tau).
  assert (Q : forall d, phi d (amt s d) tau = match md with Plain => tot d s xG stG T P | Isenthalpic => - tot d s xS stS T P
    | Isentropic => tot d s xG stG T P + T * tot d s xS stS T P | Isochoric => tot d s xG stG T P - P * tot d s xV stV T P end).
  { intros d. destruct d; unfold phi, phiM, phiP, mixPot, purePot, tot; fold T P; destruct md; reflexivity. }
  rewrite (sumL_ext Id _ _ (ids s) (fun d _ => Q d)). unfold potential, gibbs, entropy, volume. destruct md.
  - now rewrite property_sum.
  - rewrite property_sum by auto. rewrite (sumL_ext Id (fun d => - tot d s xS stS T P) (fun d => (- 1) * tot d s xS stS T P) (ids s)) by (intros; ring). rewrite <- sumL_scal. ring.
  - rewrite !property_sum by auto. rewrite <- sumL_plus, <- sumL_scal. reflexivity.
  - rewrite !property_sum by auto. rewrite (sumL_ext Id (fun d => tot d s xG stG T P - P * tot d s xV stV T P) (fun d => tot d s xG stG T P + (- P) * tot d s xV stV T P) (ids s)) by (intros; ring). rewrite <- sumL_plus, <- sumL_scal. ring.
Qed.

(** ** Changing one column *)
Definition var_dec (v w : Var) : {v = w} + {v <> w}.
Proof. decide equality; apply Nat.eq_dec. Defined.
Lemma valVar_set v x s w : valVar (setVar v x s) w = if var_dec v w then x else valVar s w.
Proof.
  destruct v as [a b|a b], w as [c d|c d]; cbn [setVar valVar setLiq setSol setLiqC setSolC liqC solC];
    match goal with |- context [var_dec ?x ?y] => destruct (var_dec x y) as [E|E] end; try discriminate; auto.
  - injection E as -> ->. unfold upd2. now rewrite !Nat.eqb_refl.
  - unfold upd2. destruct (Nat.eqb_spec c a); auto. destruct (Nat.eqb_spec d b); auto. exfalso. apply E. congruence.
  - injection E as -> ->. unfold upd2. now rewrite !Nat.eqb_refl.
  - unfold upd2. destruct (Nat.eqb_spec c a); auto. destruct (Nat.eqb_spec d b); auto. exfalso. apply E. congruence.
Qed.
Lemma amt_val s d j : amt s d j = valVar s (var d j).
Proof. destruct d; reflexivity. Qed.
Lemma set_ids v x s : ids (setVar v x s) = ids s.
Proof. destruct v; reflexivity. Qed.
Lemma set_has v x s : hasLiquid (setVar v x s) = hasLiquid s.
Proof. destruct v; reflexivity. Qed.
Lemma set_counts v x s : counts tab s -> counts tab (setVar v x s).
Proof. destruct v; auto. Qed.

Hypothesis OKL : solutionOK liqX (nlc tab) DL.
Hypothesis OKS : forall i, (i < npc tab)%nat -> isPhase tab i = true -> na tab i <> 1%nat -> solutionOK (solX i) (na tab i) (DS i).
Hypothesis StdL : forall j, (j < nlc tab)%nat -> stdOK (liqStd j).
Hypothesis StdS : forall i, (i < npc tab)%nat -> stdOK (solStd i).

Section Final.
Variable s : St.
Hypothesis Cnt : counts tab s.
Hypothesis InL : hasLiquid s = true -> forall nl, (nl < nLiq s)%nat -> DL (liqC s nl).
Hypothesis InS : forall i n, (n < nSol s i)%nat -> na tab i <> 1%nat -> DS i (fun j => solC s (i + 1 + j)%nat n) /\ solC s i n = sum (na tab i) (fun j => solC s (i + 1 + j)%nat n).

(** equal amounts as far as there are components *)
Definition same (A B : Id -> nat -> R) : Prop := forall d, In d (ids s) -> forall k, (k < num d)%nat -> A d k = B d k.
Lemma mixTotal_same n X F q m m' : respects X n F -> (forall k, (k < n)%nat -> m k = m' k) -> mixTotal n (xR X) F q m = mixTotal n (xR X) F q m'.
Proof. intros R E. unfold mixTotal. rewrite (sum_ext n m m' E), (R m m' E). f_equal. apply sum_ext. intros k Hk. now rewrite E. Qed.
Lemma mixPot_same n X std tt pp m m' : (forall t p, respects X n (xG X t p) /\ respects X n (xS X t p) /\ respects X n (xV X t p)) -> (forall k, (k < n)%nat -> m k = m' k) ->
  mixPot md n X std tt pp m = mixPot md n X std tt pp m'.
Proof.
  intros R E. destruct (R tt pp) as (R1 & R2 & R3). unfold mixPot. cbv zeta beta.
  rewrite (mixTotal_same n X (xG X tt pp) _ m m' R1 E), (mixTotal_same n X (xS X tt pp) _ m m' R2 E), (mixTotal_same n X (xV X tt pp) _ m m' R3 E). reflexivity.
Qed.
Lemma Pot_same A B tau : same A B -> Pot Id (ids s) phi A tau = Pot Id (ids s) phi B tau.
Proof.
  intros E. unfold Pot. apply sumL_ext. intros d I. pose proof (E d I) as Ed. apply (in_ids s) in I. destruct d as [nl|i|i n]; cbn [phi].
  - apply mixPot_same; [apply (sExt _ _ _ OKL)|exact Ed].
  - unfold phiP. now rewrite (Ed O) by (cbn; lia).
  - destruct I as (I1 & I2 & I3). apply mixPot_same; [apply (sExt _ _ _ (OKS i I1 (proj1 (counted_phase tab s Cnt i ltac:(lia))) I3))|exact Ed].
Qed.
Notation updA := (updA Id id_dec).
Lemma same_set A0 v d j x s' : same (amt s') A0 -> v = var d j -> In d (ids s) -> (j < num d)%nat -> same (amt (setVar v x s')) (updA A0 d j x).
Proof.
  intros E -> I Hj d' I' k Hk. rewrite amt_val, valVar_set. unfold HessGen.updA. destruct (var_dec (var d j) (var d' k)) as [V|V].
  - destruct (var_inj s Cnt d j d' k I I' Hj Hk V) as [<- <-]. destruct (id_dec d d); [|congruence]. unfold upd. now rewrite Nat.eqb_refl.
  - rewrite <- amt_val, (E d' I' k Hk). destruct (id_dec d d') as [<-|]; auto. unfold upd. destruct (Nat.eqb_spec k j) as [->|]; [congruence|auto].
Qed.
Lemma same_refl A : same A A.
Proof. intros d _ k _. reflexivity. Qed.
Lemma pot_Pot s' A tau : ids s' = ids s -> hasLiquid s' = hasLiquid s -> counts tab s' -> same (amt s') A ->
  pot (hasLiquid s) (atT md t tau) (atP md p tau) s' = Pot Id (ids s) phi A tau.
Proof. intros E1 E2 C E. rewrite <- E2, pot_sum by auto. rewrite E1. apply (Pot_same (amt s') A). exact E. Qed.

Lemma block_exact d : In d (ids s) -> exactBlock Id (Bk s) (act s) phi (amt s) (tauOf md t p) d.
Proof.
  intros I. apply (in_ids s) in I. destruct d as [nl|i|i n].
  - destruct I as [I1 I2]. destruct (mixBlock_derivs md liqX (nlc tab) DL OKL liqStd StdL t p (liqC s nl) (sum (nlc tab) (liqC s nl)) Ht (InL I1 nl I2) eq_refl) as [K1 K2]. split; auto.
  - destruct I as (I1 & I2 & I3). destruct (pureBlock_derivs md (solStd i) (StdS i I1) t p (fun _ => solC s i O) Ht) as [K1 K2]. split; auto.
  - destruct I as (I1 & I2 & I3). destruct (InS i n I2 I3) as [J1 J2].
    destruct (Lay i I1 (proj1 (counted_phase tab s Cnt i ltac:(lia)))) as [L1 L2]. destruct (L2 ltac:(lia)) as [L3 _].
    destruct (mixBlock_derivs md (solX i) (na tab i) (DS i) (OKS i I1 (proj1 (counted_phase tab s Cnt i ltac:(lia))) I3) (fun j => solStd (i + 1 + j)%nat) (fun j Hj => StdS (i + 1 + j)%nat ltac:(lia)) t p
      (fun j => solC s (i + 1 + j)%nat n) (solC s i n) Ht J1 J2) as [K1 K2]. split; auto.
Qed.
Lemma block_exactT d : md <> Plain -> In d (ids s) -> exactT Id (Bk s) (act s) phi (amt s) (tauOf md t p) d.
Proof.
  intros Np I. apply (in_ids s) in I. destruct d as [nl|i|i n].
  - destruct I as [I1 I2]. destruct (mixBlock_derivsT md liqX (nlc tab) DL OKL liqStd StdL t p (liqC s nl) (sum (nlc tab) (liqC s nl)) Ht (InL I1 nl I2) eq_refl Np) as [K1 K2 K3 K4 K5]. split; auto.
  - destruct I as (I1 & I2 & I3). destruct (pureBlock_derivsT md (solStd i) (StdS i I1) t p (fun _ => solC s i O) Ht Np) as [K1 K2 K3 K4 K5]. split; auto.
  - destruct I as (I1 & I2 & I3). destruct (InS i n I2 I3) as [J1 J2].
    destruct (Lay i I1 (proj1 (counted_phase tab s Cnt i ltac:(lia)))) as [L1 L2]. destruct (L2 ltac:(lia)) as [L3 _].
    destruct (mixBlock_derivsT md (solX i) (na tab i) (DS i) (OKS i I1 (proj1 (counted_phase tab s Cnt i ltac:(lia))) I3) (fun j => solStd (i + 1 + j)%nat) (fun j Hj => StdS (i + 1 + j)%nat ltac:(lia)) t p
      (fun j => solC s (i + 1 + j)%nat n) (solC s i n) Ht J1 J2 Np) as [K1 K2 K3 K4 K5]. split; auto.
Qed.
End Final.
End State.
