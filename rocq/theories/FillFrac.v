(** C70 for fractionated matter: which phases a result lists as fractionated. *)
From Coq Require Import Reals List Bool Arith Lia Lra.
From Verif Require Import MassModel MassSpec FillModel FillProps.
Import ListNotations.
Local Open Scope R_scope.
Section P.
Variables (tab : Tab) (isFluid : nat -> bool) (curLiq curSol : nat -> Which -> R) (mixLiq : (nat -> R) -> Which -> R)
  (mixSol : nat -> (nat -> R) -> Which -> R) (viscLiq : (nat -> R) -> R) (junk : R) (someLiquid : bool).
Notation fill := (fill tab isFluid curLiq curSol mixLiq mixSol viscLiq junk someLiquid).
Notation solEntry := (solEntry tab curSol mixSol).
(** solids are wanted, or the fluid is *)
Definition wanted (c : Conf) (j : nat) : Prop := if isFluid j then cFracFlu c = true else cFracSol c = true.
(** With a switch on, instance ns of phase j is listed as fractionated exactly if its kind is wanted *)
Theorem C70_fractionated_entries : forall index st c s, cFracSol c = true \/ cFracFlu c = true ->
  let out := fst (fill index st c s) in
  (forall j ns, (j < npc tab)%nat -> (ns < cNFrac c j)%nat -> wanted c j -> In (solEntry (fracS s) j ns) (oFrac out))
  /\ (forall e, In e (oFrac out) -> exists j ns, (j < npc tab)%nat /\ (ns < cNFrac c j)%nat /\ wanted c j /\ e = solEntry (fracS s) j ns).
Proof.
  intros index st c s On. unfold FillModel.fill. cbv zeta. cbn [fst oFrac].
  assert (Sh : (if Rlt_dec 0 (fSol (if Nat.eqb index 0 then mkStatics 0 0 else st)) then true else false) || cFracSol c || cFracFlu c = true).
  { destruct On as [-> | ->]; [now rewrite orb_true_r|apply orb_true_r]. }
  rewrite Sh. rewrite addSolids_list. cbn [rList app].
  assert (W : forall j, skipFrac isFluid c j = false <-> wanted c j).
  { intros j. unfold skipFrac, wanted. destruct On as [E|E]; rewrite E; destruct (cFracSol c), (cFracFlu c), (isFluid j); cbn; intuition congruence. }
  split.
  - intros j ns Hj Hn Hw. apply in_map_iff. exists (j, ns). split; [reflexivity|]. unfold instances. apply in_flat_map. exists j.
    split; [apply in_seq; lia|]. rewrite (proj2 (W j) Hw). apply in_map_iff. exists ns. split; [reflexivity|]. apply in_seq. lia.
  - intros e He. apply in_map_iff in He. destruct He as ([j ns] & <- & He). unfold instances in He. apply in_flat_map in He. destruct He as (j' & Hj & He).
    apply in_map_iff in He. destruct He as (ns' & Eq & He). injection Eq as -> ->. apply in_seq in Hj, He. destruct (skipFrac isFluid c j) eqn:Sk; [lia|].
    exists j, ns. split; [lia|]. split; [lia|]. split; [now apply W|reflexivity].
Qed.
End P.
