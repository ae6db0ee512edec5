(** The search for the wet liquidus. *)
From Coq Require Import Reals List Bool Arith ZArith Lia Lra.
From Verif Require Import MassModel MassSpec RedoxModel LiquidusModel LiquidusProofs LiquidusProps WetModel.
Import ListNotations.
Local Open Scope R_scope.

Section Props.
Variable tab : Tab.
Variable coeff : nat -> R.
Variables iF2 iF3 : nat.
Variable capped : bool.
Variable P : R.
Variable buffer : R -> R.
Variable saturated : (nat -> bool) -> R -> R -> R -> St -> bool.
Variable equilibrate : (nat -> bool) -> LSys -> LSys * Z.
Variable nPhases : nat.
Variable isFluid : nat -> bool.
Notation wetLoop := (wetLoop tab coeff iF2 iF3 capped P buffer saturated equilibrate nPhases isFluid).
Notation findWetLiquidus := (findWetLiquidus tab coeff iF2 iF3 capped P buffer saturated equilibrate nPhases isFluid).
Notation fluidOnly := (fluidOnly nPhases isFluid).
Notation restored := (restored nPhases).
Notation search := (search tab coeff iF2 iF3 capped P buffer).

Lemma restored_id f j : restored f (fluidOnly f) j = f j.
Proof. unfold WetModel.restored, WetModel.fluidOnly. now destruct (Nat.ltb j nPhases). Qed.

(** ** C140: what a wet liquidus is *)
(** the last round: a system [ya] was equilibrated with the fluid only, at its temperature, giving [yb]; from there the
    liquidus was found at a temperature at most half a degree away *)
Definition lastRound (f : nat -> bool) (ya yb : LSys) (w' : WState) : Prop :=
  equilibrate (fluidOnly f) ya = (yb, SILMIN_SUCCESS) /\
  (exists c l, idle c /\ search (saturated (restored f (fluidOnly f))) (c, noSolids yb) l (wctl w', wsys w')) /\
  Rabs (T ya - T (wsys w')) <= 1 / 2.
Lemma loop_spec it w it' w' : wetLoop it w it' w' -> idle (wctl w) -> (it < 50)%nat ->
  (it' <= 50)%nat /\
  (status (wctl w') = LIQUIDUS_SUCCESS -> idle (wctl w') /\ (forall j, inc w' j = inc w j) /\ dStart w' = T (wsys w') /\ dStop w' = T (wsys w') /\
     (it' = 50%nat \/ exists f ya yb, (forall j, f j = inc w j) /\ lastRound f ya yb w')) /\
  (it' = 50%nat -> status (wctl w') = LIQUIDUS_SUCCESS).
Proof.
  assert (ID : forall c, idle c -> idle (setStatus SILMIN_SUCCESS c)) by (intros c (A & B); split; assumption).
  assert (IE : forall g c y l c' y', idle c -> search g (c, y) l (c', y') -> status c' = LIQUIDUS_SUCCESS -> idle c').
  { intros g c y l c' y' I S E. destruct (C134_outcomes tab coeff iF2 iF3 capped P buffer g c y l _ I S) as [(A & _)|[(b & _ & _ & [(A & _)|(A & _)])|(_ & A & _)]]; cbn [fst snd] in *; try (rewrite E in A; discriminate). exact A. }
  induction 1 as [it w y1 st EQ NE|it w y1 l c2 y2 EQ inc' S NE|it w y1 l c2 y2 EQ inc' S E D|it w y1 l c2 y2 it' w' EQ inc' S E D W IH]; intros I Hit.
  - split; [lia|]. cbn [wctl status setStatus]. split; [discriminate|lia].
  - split; [lia|]. cbn [wctl]. split; [congruence|lia].
  - split; [lia|]. cbn [wctl wsys inc dStart dStop]. split; [|intros _; exact E]. intros _.
    split; [exact (IE _ _ _ _ _ _ (ID _ I) S E)|split; [intros j; apply restored_id|split; [reflexivity|split; [reflexivity|]]]].
    destruct (Rle_dec (Rabs (T (wsys w) - T y2)) (1 / 2)) as [L|L].
    + right. exists (inc w), (wsys w), y1. split; [reflexivity|]. split; [exact EQ|split; [|exact L]].
      exists (setStatus SILMIN_SUCCESS (wctl w)), l. split; [now apply ID|exact S].
    + left. destruct (lt_dec (Datatypes.S it) 50) as [K|K]; [exfalso; apply D; split; [lra|exact K]|lia].
  - destruct IH as (A & B & C). { exact (IE _ _ _ _ _ _ (ID _ I) S E). } { apply D. }
    cbn [inc] in B. split; [exact A|split; [|exact C]]. intros St. destruct (B St) as (B1 & B2 & B3 & B4 & B5).
    split; [exact B1|split; [intros j; rewrite B2; apply restored_id|split; [exact B3|split; [exact B4|]]]].
    destruct B5 as [B5|(f & ya & yb & B5 & B6)]; [now left|]. right. exists f, ya, yb. split; [|exact B6]. intros j. rewrite B5. apply restored_id.
Qed.
Theorem C140_meaning w w' failure : idle (wctl w) -> findWetLiquidus w w' failure -> status (wctl w') = LIQUIDUS_SUCCESS ->
  failure = false /\ (forall j, inc w' j = inc w j) /\ dInc w' = dInc w /\ dStart w' = T (wsys w') /\ dStop w' = T (wsys w') /\
  exists f ya yb, (forall j, f j = inc w j) /\ lastRound f ya yb w'.
Proof.
  intros I H E. destruct H as [w U|w w' U W|w it w' U W N].
  - discriminate.
  - discriminate.
  - destruct (loop_spec 0 w it w' W I ltac:(lia)) as (A & B & C). destruct (B E) as (B1 & B2 & B3 & B4 & [B5|B5]); [contradiction|].
    cbn [inc dInc dStart dStop wsys wctl] in *. auto 10.
Qed.
(** the temperature found is a bracketed liquidus of the system equilibrated with the fluid *)
Theorem C140_bracket w w' failure : idle (wctl w) -> findWetLiquidus w w' failure -> status (wctl w') = LIQUIDUS_SUCCESS ->
  exists Tq mq q, Rabs (T (wsys w') - Tq) = resolution /\ exists ya yb c l0 f, equilibrate (fluidOnly f) ya = (yb, SILMIN_SUCCESS) /\ (forall j, f j = inc w j) /\
    search (saturated (restored f (fluidOnly f))) (c, noSolids yb) (l0 ++ [(Tq, mq, q); (T (wsys w'), matter (wsys w'), negb q)]) (wctl w', wsys w').
Proof.
  intros I H E. destruct (C140_meaning w w' failure I H E) as (_ & _ & _ & _ & _ & f & ya & yb & F & EQ & (c & l & Ic & S) & _).
  destruct (C134_bracket tab coeff iF2 iF3 capped P buffer _ c (noSolids yb) l (wctl w') (wsys w') Ic S E) as (l0 & Tq & mq & q & -> & Q).
  exists Tq, mq, q. split; [exact Q|]. exists ya, yb, c, l0, f. auto.
Qed.

(** ** C141: the failure flag *)
(** it is never raised together with a success *)
Theorem C141_flag_true w w' : findWetLiquidus w w' true -> status (wctl w') <> LIQUIDUS_SUCCESS.
Proof. intros H. inversion H; subst; cbn [wctl setStatus status]; discriminate. Qed.
(** refuted: but whenever the equilibration or the search fails it is not raised either *)
Theorem C141_flag_missing w y1 st : unfit (wsys w) = false -> equilibrate (fluidOnly (inc w)) (wsys w) = (y1, st) -> st <> SILMIN_SUCCESS ->
  exists w', findWetLiquidus w w' false /\ status (wctl w') = LIQUIDUS_SILMIN_ERROR.
Proof.
  intros U E N. eexists. split; [eapply wet_found; [exact U|eapply wet_silmin; [exact E|exact N]|lia]|reflexivity].
Qed.
Theorem C141_flag_missing_search w y1 l c2 y2 : unfit (wsys w) = false -> equilibrate (fluidOnly (inc w)) (wsys w) = (y1, SILMIN_SUCCESS) ->
  search (saturated (restored (inc w) (fluidOnly (inc w)))) (setStatus SILMIN_SUCCESS (wctl w), noSolids y1) l (c2, y2) -> status c2 <> LIQUIDUS_SUCCESS ->
  exists w', findWetLiquidus w w' false /\ status (wctl w') <> LIQUIDUS_SUCCESS.
Proof.
  intros U E S N. eexists. split; [eapply wet_found; [exact U|eapply wet_liquidus; [exact E|exact S|exact N]|lia]|exact N].
Qed.

(** ** C142: the list of allowed phases *)
(** it is the caller's again whenever the equilibrations succeeded *)
Lemma loop_inc it w it' w' : wetLoop it w it' w' -> status (wctl w') <> LIQUIDUS_SILMIN_ERROR -> forall j, inc w' j = inc w j.
Proof.
  induction 1 as [it w y1 st EQ NE|it w y1 l c2 y2 EQ inc' S NE|it w y1 l c2 y2 EQ inc' S E D|it w y1 l c2 y2 it' w' EQ inc' S E D W IH]; intros H j.
  - destruct H. reflexivity.
  - apply restored_id.
  - apply restored_id.
  - rewrite (IH H). apply restored_id.
Qed.
Theorem C142_restored w w' failure : findWetLiquidus w w' failure -> status (wctl w') <> LIQUIDUS_SILMIN_ERROR -> idle (wctl w) ->
  (forall j, inc w' j = inc w j) /\ dInc w' = dInc w.
Proof.
  intros H E I. destruct H as [w U|w w' U W|w it w' U W N]; cbn [inc dInc wctl] in *; split; auto.
  - refine (loop_inc 0 w 50 w' W _). destruct (loop_spec 0 w 50 w' W I ltac:(lia)) as (_ & _ & C). rewrite (C eq_refl). discriminate.
  - exact (loop_inc 0 w it w' W E).
Qed.
(** refuted: after an equilibration that failed, every phase but the fluid stays suppressed *)
Theorem C142_lost w y1 st : unfit (wsys w) = false -> equilibrate (fluidOnly (inc w)) (wsys w) = (y1, st) -> st <> SILMIN_SUCCESS ->
  exists w', findWetLiquidus w w' false /\ forall j, (j < nPhases)%nat -> inc w' j = isFluid j.
Proof.
  intros U E N. eexists. split; [eapply wet_found; [exact U|eapply wet_silmin; [exact E|exact N]|lia]|].
  intros j Hj. cbn [inc]. unfold WetModel.fluidOnly. apply Nat.ltb_lt in Hj. now rewrite Hj.
Qed.
End Props.

(** ** Case: a buffered liquid, liquidus at 1500 K, started at 1400 K: two rounds *)
Definition bufferCase (t : R) : R := - 8 - t / 1000.
Definition satCase (f : nat -> bool) : R -> R -> R -> St -> bool := fun a t o s => f 1%nat && below 1500 a t o s.
Lemma case_search c y : idle c -> solidMass y = 0 -> nLiq (matter y) = 1%nat -> 1390 <= T y <= 1510 ->
  exists l c' y', search twoTab (fun _ => 0) 0 1 true 1000 bufferCase (satCase (restored 2 (fun _ => true) (fluidOnly 2 (fun j => Nat.eqb j 0) (fun _ => true)))) (c, y) l (c', y') /\
    status c' = LIQUIDUS_SUCCESS /\ idle c' /\ Rabs (T y' - 1500) <= resolution /\ solidMass y' = 0 /\ nLiq (matter y') = 1%nat.
Proof.
  intros I S0 N W. set (g := satCase _).
  assert (G : forall a t o s, g a t o s = if Rlt_dec t 1500 then true else false) by (intros; unfold g, satCase, below, restored; reflexivity).
  destruct (C137_accuracy twoTab (fun _ => 0) 0 1 true 1000 bufferCase g ltac:(lia) ltac:(cbn; lia) ltac:(cbn; lia) twoTab_invertible c y 1500 I) as (l & c' & y' & S & E & A & _).
  - unfold unfit. rewrite S0, N. destruct (Rlt_dec 0 0); [lra|reflexivity].
  - unfold withinLimits, saturatedAt. rewrite !G. destruct (Rlt_dec (T y) 1500); cbn [stepFor]; lra.
  - intros t Ht. unfold saturatedAt. rewrite G. destruct (Rlt_dec t 1500); [reflexivity|lra].
  - intros t Ht. unfold saturatedAt. rewrite G. destruct (Rlt_dec t 1500); [lra|reflexivity].
  - exists l, c', y'. split; [exact S|split; [exact E|]].
    destruct (C135_state twoTab (fun _ => 0) 0 1 true 1000 bufferCase g ltac:(lia) ltac:(cbn; lia) ltac:(cbn; lia) twoTab_invertible c y l c' y' I S E) as (M & _ & _ & SM).
    split; [|split; [exact A|split; [now rewrite SM|]]].
    + destruct (C134_outcomes _ _ _ _ _ _ _ _ c y l _ I S) as [(B & _)|[(b & _ & _ & [(B & _)|(B & _)])|(_ & B & _)]]; cbn [fst snd] in *; try (rewrite E in B; discriminate). exact B.
    + rewrite M. unfold buffered. destruct (fo2On (matter y)); exact N.
Qed.
Theorem C140_case : let w := mkW (startCtl 9999) (mkLSys twoSt 1400 (-8) 0 0) (fun _ => true) 1 2 3 in
  idle (wctl w) /\ exists w', findWetLiquidus twoTab (fun _ => 0) 0 1 true 1000 bufferCase satCase (fun _ y => (y, SILMIN_SUCCESS)) 2 (fun j => Nat.eqb j 0) w w' false /\
    status (wctl w') = LIQUIDUS_SUCCESS /\ Rabs (T (wsys w') - 1500) <= resolution.
Proof.
  intros w. assert (I : idle (wctl w)) by (split; reflexivity). split; [exact I|].
  destruct (case_search (setStatus SILMIN_SUCCESS (wctl w)) (noSolids (wsys w))) as (l & c1 & y1 & S1 & E1 & I1 & A1 & Z1 & N1).
  { split; reflexivity. } { reflexivity. } { reflexivity. } { cbn; lra. }
  assert (R1 : T y1 - 1500 <= resolution /\ - resolution <= T y1 - 1500) by (revert A1; unfold Rabs; destruct (Rcase_abs (T y1 - 1500)); lra).
  unfold resolution in R1.
  destruct (case_search (setStatus SILMIN_SUCCESS c1) (noSolids y1)) as (l2 & c2 & y2 & S2 & E2 & I2 & A2 & Z2 & N2).
  { destruct I1; split; assumption. } { reflexivity. } { exact N1. } { cbn; lra. }
  assert (R2 : T y2 - 1500 <= resolution /\ - resolution <= T y2 - 1500) by (revert A2; unfold Rabs; destruct (Rcase_abs (T y2 - 1500)); lra).
  unfold resolution in R2.
  eexists. split; [|split].
  - eapply wet_found; [| |]. 
    + unfold unfit, w. cbn [wsys solidMass matter nLiq twoSt]. destruct (Rlt_dec 0 0); [lra|reflexivity].
    + eapply wet_again; [reflexivity|exact S1|exact E1| |].
      * split; [|lia]. cbn [w wsys T]. unfold Rabs. destruct (Rcase_abs (1400 - T y1)); lra.
      * eapply wet_end; [reflexivity| |exact E2|].
        { cbn [inc wctl wsys w]. 
          replace (restored 2 (restored 2 (fun _ => true) (fluidOnly 2 (fun j => Nat.eqb j 0) (fun _ => true)))
            (fluidOnly 2 (fun j => Nat.eqb j 0) (restored 2 (fun _ => true) (fluidOnly 2 (fun j => Nat.eqb j 0) (fun _ => true)))))
            with (restored 2 (fun _ => true) (fluidOnly 2 (fun j => Nat.eqb j 0) (fun _ => true))).
          - exact S2.
          - apply FunctionalExtensionality.functional_extensionality. intros j. unfold restored, fluidOnly. now destruct (Nat.ltb j 2). }
        { intros (K & _). cbn [wsys] in K. revert K. unfold Rabs. destruct (Rcase_abs (T y1 - T y2)); lra. }
    + lia.
  - exact E2.
  - exact A2.
Qed.
(** C141 and C142: the same system, when the equilibration fails *)
Theorem C142_case : let w := mkW (startCtl 9999) (mkLSys twoSt 1400 (-8) 0 0) (fun _ => true) 1 2 3 in
  exists w', findWetLiquidus twoTab (fun _ => 0) 0 1 true 1000 bufferCase satCase (fun _ y => (y, 6%Z)) 2 (fun j => Nat.eqb j 0) w w' false /\
    status (wctl w') = LIQUIDUS_SILMIN_ERROR /\ inc w 1%nat = true /\ inc w' 1%nat = false.
Proof.
  intros w. eexists. split; [eapply wet_found; [|eapply wet_silmin; [reflexivity|discriminate]|lia]|split; [reflexivity|split; reflexivity]].
  unfold unfit, w. cbn [wsys solidMass matter nLiq twoSt]. destruct (Rlt_dec 0 0); [lra|reflexivity].
Qed.
