(** The filling loops with nothing but the gradient in the vector, as they run under an oxygen buffer, before the oxygen is
    put in. The proofs are those of HessProofs.v with hasNlCon true. *)
From Coq Require Import Reals List Lia Lra Bool Arith FinFun FunctionalExtensionality.
From Coquelicot Require Import Coquelicot.
From Verif Require Import MassModel MassSpec MassProofs RealTac StepModel StepProofs HessModel HessFill HessGen HessSpec HessPhase HessBlock HessProofs OxyModel.
Import List ListNotations.
Open Scope R_scope.

Section State.
Variable tab : Tab.
Variable md : Mode.
Variables t p : R.
Variable liqX : Mixing.
Variable liqStd : nat -> Std.
Variable solX : nat -> Mixing.
Variable solStd : nat -> Std.
Variable conCols : nat.
Notation idx := (tIndex md conCols).
Notation Bk := (Bk tab md t p liqX liqStd solX solStd).
Notation act := (act tab md t p liqX liqStd solX solStd).
Notation ids := (ids tab).
Notation idsS := (idsS tab).
Notation idsP := (idsP tab).
Notation plc s l := (places Id (act s) l).
Definition baseHess (hasL : bool) (s : St) : Mats :=
  let M := mkMats (fun _ _ => 0) (fun _ => 0) O in
  let M := if hasL then loop (nLiq s) (fun l => fillMix true idx (liqBlock tab md t p liqX liqStd s l)) M else M in
  loop (npc tab) (fun i M =>
    if Nat.ltb 0 (nSol s i) then
      if Nat.eqb (na tab i) 1 then fillPure idx (pureBlock md t p (solStd i) (fun _ => solC s i O)) M
      else loop (nSol s i) (fun n => fillMix true idx (solBlock tab md t p solX solStd s i n)) M
    else M) M.
Section Loops.
Variable s : St.
Definition filled (l : list Id) (M : Mats) : Prop :=
  colRow M = length (plc s l) /\ (forall r c, mE M r c = totE Id idx (Bk s) (act s) l 0 r c) /\ (forall r, mB M r = totB Id true idx (Bk s) (act s) l 0 r).
Lemma totE_app l l' : forall base r c, totE Id idx (Bk s) (act s) (l ++ l') base r c = totE Id idx (Bk s) (act s) l base r c + totE Id idx (Bk s) (act s) l' (base + length (plc s l)) r c.
Proof.
  induction l as [|d l IH]; intros base r c; [change (totE Id idx (Bk s) (act s) l' base r c = 0 + totE Id idx (Bk s) (act s) l' (base + 0) r c); rewrite Nat.add_0_r; ring|].
  cbn [app totE]. rewrite IH. unfold places. cbn [flat_map]. rewrite app_length, map_length, Nat.add_assoc. ring.
Qed.
Lemma totB_app l l' : forall base r, totB Id true idx (Bk s) (act s) (l ++ l') base r = totB Id true idx (Bk s) (act s) l base r + totB Id true idx (Bk s) (act s) l' (base + length (plc s l)) r.
Proof.
  induction l as [|d l IH]; intros base r; [change (totB Id true idx (Bk s) (act s) l' base r = 0 + totB Id true idx (Bk s) (act s) l' (base + 0) r); rewrite Nat.add_0_r; ring|].
  cbn [app totB]. rewrite IH. unfold places. cbn [flat_map]. rewrite app_length, map_length, Nat.add_assoc. ring.
Qed.
Lemma places_app l l' : plc s (l ++ l') = plc s l ++ plc s l'.
Proof. unfold places. apply flat_map_app. Qed.
Lemma places_one d : length (plc s [d]) = length (act s d).
Proof. unfold places. cbn [flat_map]. now rewrite app_nil_r, map_length. Qed.
Lemma filled_snoc l d M M' : filled l M ->
  colRow M' = (colRow M + length (act s d))%nat /\ (forall r c, mE M' r c = mE M r c + wholeE idx (Bk s d) (act s d) (colRow M) r c) /\
  (forall r, mB M' r = mB M r + wholeB true idx (Bk s d) (act s d) (colRow M) r) -> filled (l ++ [d]) M'.
Proof.
  intros (F1 & F2 & F3) (K1 & K2 & K3). split; [|split].
  - rewrite K1, F1, places_app, app_length, places_one. reflexivity.
  - intros r c. rewrite K2, F2, totE_app. cbn [totE]. rewrite F1, Nat.add_0_l. ring.
  - intros r. rewrite K3, F3, totB_app. cbn [totB]. rewrite F1, Nat.add_0_l. ring.
Qed.
Hypothesis Fit : forall i, idx = Some i -> (length (plc s (ids s)) <= i)%nat.
Lemma fits_prefix l l' : ids s = l ++ l' -> forall i, idx = Some i -> (length (plc s l) <= i)%nat.
Proof.
  intros E i Hi. specialize (Fit i Hi). rewrite E, places_app, app_length in Fit. lia.
Qed.
Lemma step_filled l d l' M M' : ids s = l ++ [d] ++ l' -> filled l M ->
  M' = match d with IP _ => fillPure idx (Bk s d) M | _ => fillMix true idx (Bk s d) M end -> filled (l ++ [d]) M'.
Proof.
  intros E F ->. apply (filled_snoc l d M _ F).
  assert (B : forall i, idx = Some i -> (colRow M + length (act s d) <= i)%nat).
  { intros i Hi. destruct F as [-> _]. pose proof (fits_prefix (l ++ [d]) l') as Q. rewrite <- app_assoc in Q. specialize (Q E i Hi). rewrite places_app, app_length, places_one in Q. exact Q. }
  destruct d as [nl|i|i n]; cbn [HessProofs.act] in *.
  - apply fillMix_spec. exact B.
  - apply fillPure_spec; [intros; apply pure_D2|exact B].
  - apply fillMix_spec. exact B.
Qed.
Lemma seq_split n k : (k < n)%nat -> seq 0 n = seq 0 k ++ [k] ++ seq (S k) (n - S k).
Proof. intros H. replace n with (k + (1 + (n - S k)))%nat at 1 by lia. rewrite !seq_app. cbn [seq Nat.add app]. replace (k + 1)%nat with (S k) by lia. reflexivity. Qed.
Lemma run_map {A} (f : A -> Id) (g : A -> Mats -> Mats) (els : nat -> A) (cnt : nat) l0 l1 M0 :
  (forall k M, (k < cnt)%nat -> g (els k) M = match f (els k) with IP _ => fillPure idx (Bk s (f (els k))) M | _ => fillMix true idx (Bk s (f (els k))) M end) ->
  ids s = l0 ++ map (fun k => f (els k)) (seq 0 cnt) ++ l1 -> filled l0 M0 ->
  filled (l0 ++ map (fun k => f (els k)) (seq 0 cnt)) (loop cnt (fun k M => g (els k) M) M0).
Proof.
  intros G E F. apply (loop_inv (fun k M => filled (l0 ++ map (fun k => f (els k)) (seq 0 k)) M)).
  - cbn. now rewrite app_nil_r.
  - intros k M Hk FM. rewrite seq_S, map_app, app_assoc. cbn [map Nat.add]. eapply (step_filled _ _ (map (fun k => f (els k)) (seq (S k) (cnt - S k)) ++ l1)); [|exact FM|apply G; auto].
    rewrite E, (seq_split cnt k Hk), !map_app. cbn [map]. now rewrite <- !app_assoc.
Qed.
Lemma idsS_split k : (k < npc tab)%nat -> exists l, idsS s (npc tab) = idsS s k ++ idsP s k ++ l.
Proof. intros H. unfold HessProofs.idsS. rewrite (seq_split (npc tab) k H), !flat_map_app. cbn [flat_map]. rewrite app_nil_r. eexists. reflexivity. Qed.
Theorem base_filled : filled (ids s) (baseHess (hasLiquid s) s).
Proof.
  unfold baseHess. cbv zeta. unfold HessProofs.ids.
  apply (loop_inv (fun k M => filled (idsL s ++ idsS s k) M)).
  - unfold HessProofs.idsS. cbn [seq flat_map]. rewrite app_nil_r.
    assert (F0 : filled [] (mkMats (fun _ _ => 0) (fun _ => 0) 0)) by (split; [reflexivity|split; reflexivity]).
    unfold idsL. destruct (hasLiquid s) eqn:HL; [|exact F0].
    apply (run_map (fun k : nat => IL k) (fun l => fillMix true idx (liqBlock tab md t p liqX liqStd s l)) (fun k => k) (nLiq s) [] (idsS s (npc tab))); auto.
    unfold HessProofs.ids, idsL. now rewrite HL.
  - intros k M Hk FM. unfold HessProofs.idsS. rewrite seq_S, flat_map_app. cbn [Nat.add flat_map]. rewrite app_nil_r. fold (idsS s k). rewrite app_assoc.
    destruct (idsS_split k Hk) as [l El]. assert (E : ids s = (idsL s ++ idsS s k) ++ idsP s k ++ l) by (unfold HessProofs.ids; rewrite El, !app_assoc; reflexivity).
    unfold HessProofs.idsP in *. destruct (Nat.ltb 0 (nSol s k)); [|now rewrite app_nil_r]. destruct (Nat.eqb (na tab k) 1).
    + eapply step_filled; [exact E|exact FM|reflexivity].
    + apply (run_map (fun n : nat => IS k n) (fun n => fillMix true idx (solBlock tab md t p solX solStd s k n)) (fun n => n) (nSol s k) _ l); auto.
Qed.
End Loops.
End State.
