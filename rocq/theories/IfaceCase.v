(** The theorems of IfaceProps.v on the tables the program ships, in each of its modes. *)
From Coq Require Import Reals List Arith Lia Lra ZArith.
From Verif Require Import MassModel MassSpec MassProofs RedoxModel RedoxProps SupplyModel IfaceModel IfaceProps InitModel InitProofs InitProps ElmTable.
Open Scope R_scope.

(** the indices of FeO and Fe2O3 are inside every table *)
Lemma nc_shipped m t : initialised m t -> nc t = 19%nat.
Proof. intros It. rewrite (in_nc m t It). reflexivity. Qed.

(** C203: whatever is issued after InitializeMelts, in any order, the engine holds what the object shows *)
Theorem C203_shipped : forall m t coeff iF2 iF3 capped ob, In m modes -> initialised m t ->
  configured t coeff iF2 iF3 capped ob -> compSet ob = true -> shows t ob.
Proof.
  intros m t coeff iF2 iF3 capped ob Hm It C S. destruct (checked m Hm) as [ce Ch].
  exact (C203_shows t coeff iF2 iF3 capped (init_invertible m t It ce Ch) (fun o Ho => Rgt_not_eq _ _ (omw_pos m t o It Ho)) ob C S).
Qed.
(** C206, C207: the iron of the liquid the engine then holds has the oxygen potential of the buffer, and not of the buffer
    with the offset *)
Theorem C206_shipped : forall m t capped b ob, In m modes -> initialised m t ->
  configured t coeffs 5 3 capped ob -> ready ob -> (forall o, (o < 19)%nat -> 0 <= entered ob o) ->
  0 < entered ob 5%nat \/ 0 < entered ob 3%nat ->
  exists ob', redistribute t coeffs 5 3 capped b ob = Accepted ob' /\ shows t ob' /\ sameSettings ob' ob /\
    muO2 t coeffs 5 3 capped (temp ob) (press ob) (liqC (matter (node ob')) 0) = Rgas * temp ob * ln 10 * bufferValue ob.
Proof.
  intros m t capped b ob Hm It C Rd P I. destruct (checked m Hm) as [ce Ch]. pose proof (nc_shipped m t It) as N.
  assert (Mw : forall o, (o < nc t)%nat -> 0 < omw t o) by (intros o Ho; exact (omw_pos m t o It Ho)).
  destruct (C206_nonnegative t coeffs 5 3 capped ltac:(lia) ltac:(lia) ltac:(lia) Mw b ob Rd) as (ob' & k & E & _ & _ & _ & _ & _ & _ & F & _ & S).
  - intros o Ho. apply P. lia.
  - exact I.
  - assert (C' : configured t coeffs 5 3 capped ob') by exact (cf_accepted _ _ _ _ _ (CRedist b) ob ob' C E).
    assert (CS : compSet ob' = true).
    { pose proof E as E2. rewrite (redistribute_eq t coeffs 5 3 capped ltac:(lia) ltac:(lia) ltac:(lia) b ob Rd) in E2. injection E2 as E2. now rewrite <- E2. }
    exists ob'. split; [exact E|]. split; [exact (C203_shipped m t coeffs 5%nat 3%nat capped ob' Hm It C' CS)|]. split; [exact S|].
    destruct S as (S1 & S2 & S3 & S4 & S5). rewrite <- S3, <- S4.
    apply (C206_potential t coeffs 5 3 capped ltac:(lia) ltac:(lia) Mw (init_invertible m t It ce Ch) ob' (bufferValue ob) C' CS).
    rewrite S3, S4. exact F.
Qed.
