(** Where the oxygen terms end up: one liquid, any number of solids. *)
From Coq Require Import Reals List Lia Lra Bool Arith.
From Coquelicot Require Import Coquelicot.
From Verif Require Import MassModel MassSpec MassProofs RealTac StepModel StepProofs HessModel HessFill HessGen HessSpec HessPhase HessBlock HessProofs OxyModel OxyBase.
Import List ListNotations.
Open Scope R_scope.

Ltac crush := repeat (match goal with
  | |- context [Nat.eqb ?a ?b] => destruct (Nat.eqb_spec a b)
  | |- context [Nat.leb ?a ?b] => destruct (Nat.leb_spec a b)
  | |- context [Nat.ltb ?a ?b] => destruct (Nat.ltb_spec a b) end; cbn [andb orb]; subst; try (exfalso; lia)); try ring.
Section Fill.
Variable tab : Tab.
Variable md : Mode.
Variables t p : R.
Variable conCols : nat.
Variable nuL : nat -> R.
Variable nuS : nat -> R.
Variable ol : OxyL.
Variable oe : OxyE.
Variable os : OxyS.
Variable liqX : Mixing.
Variable liqStd : nat -> Std.
Variable solX : nat -> Mixing.
Variable solStd : nat -> Std.
Notation idx := (tIndex md conCols).
Notation last := (lastAmount md conCols).
Variable s : St.
Hypothesis One : nLiq s = 1%nat.
Notation m0 := (liqC s O).
Notation B0 := (liqBlock tab md t p liqX liqStd s O).
Notation actL := (active B0).
Notation nL := (length actL).
Notation N := (mO2T tab nuL nuS s).
Notation oB := (oxyLiqB md t p nuL ol oe N m0).
Notation oX := (oxyLiqX md t p nuL ol oe N m0).
Notation oE := (oxyLiqE t p nuL ol N m0).
Notation d1 := (oM ol t p m0).
Hypothesis LastOK : (nL <= last)%nat.

Definition inR (c : nat) : bool := Nat.leb nL c && Nat.ltb c last.
Lemma isIdx_last c : isIdx idx c = true -> c = last /\ idx = Some c.
Proof. unfold isIdx, tIndex, lastAmount. destruct (imposedMode md); [|discriminate]. intros E. apply Nat.eqb_eq in E. subst. auto. Qed.
Lemma isIdx_out c : (c < last)%nat -> isIdx idx c = false.
Proof. intros H. destruct (isIdx idx c) eqn:E; auto. apply isIdx_last in E. lia. Qed.
Lemma inR_true c : inR c = true <-> (nL <= c < last)%nat.
Proof. unfold inR. rewrite andb_true_iff, Nat.leb_le, Nat.ltb_lt. reflexivity. Qed.
Lemma B0_act j : isActive B0 j = negb (zeroR (m0 j)).
Proof. unfold isActive, liqBlock. now rewrite B_m. Qed.
Lemma B0_n : bN B0 = nlc tab.
Proof. unfold liqBlock. now rewrite B_n. Qed.

(** ** The liquid *)
Definition rowPart (i c : nat) : R := match at_ 0 actL c with Some j => oE i j | None => if inR c then - d1 i else if isIdx idx c then oX i else 0 end.
Definition colPart (i r : nat) : R := if inR r then - d1 i else if isIdx idx r then oX i else 0.

Lemma inner_n k i M n : (n <= nlc tab)%nat ->
  let L := loop n (fun j Ml => let '(M, l) := Ml in if zeroR (m0 j) then (M, l) else (addE k l (oE i j) M, S l)) (M, O) in
  snd L = length (upto B0 n) /\ colRow (fst L) = colRow M /\ (forall r, mB (fst L) r = mB M r) /\
  (forall r c, mE (fst L) r c = mE M r c + (if Nat.eqb r k then match at_ 0 (upto B0 n) c with Some j => oE i j | None => 0 end else 0)).
Proof.
  intros Hn. induction n; cbv zeta.
  - cbn [loop fst snd upto]. split; [reflexivity|]. split; [reflexivity|]. split; [reflexivity|].
    intros r c. unfold at_. cbn. destruct (r =? k)%nat; [|ring]. destruct (c - 0)%nat; cbn; ring.
  - specialize (IHn ltac:(lia)). cbn [loop]. cbv zeta in IHn. destruct (loop n _ (M, O)) as [M1 l1] eqn:EL. cbn [fst snd] in *. destruct IHn as (I1 & I2 & I3 & I4).
    rewrite upto_S, B0_act. destruct (zeroR (m0 n)) eqn:Z; cbn [negb].
    + cbn [fst snd]. auto.
    + cbn [fst snd addE mE mB colRow]. rewrite app_length. cbn [length]. split; [lia|]. split; [exact I2|]. split; [exact I3|].
      intros r c. unfold upd2. rewrite at_snoc, Nat.add_0_l, <- I1. destruct (Nat.eqb_spec r k) as [->|Nr]; cbn [andb].
      * destruct (Nat.eqb_spec c l1) as [->|Nc].
        -- rewrite I4, Nat.eqb_refl. rewrite at_out by lia. ring.
        -- now rewrite I4, Nat.eqb_refl.
      * rewrite I4. apply Nat.eqb_neq in Nr. now rewrite Nr.
Qed.
Lemma range_n k x M n : (k < colRow M)%nat ->
  let L := loop n (fun q M => let j := (colRow M + q)%nat in addE j k x (addE k j x M)) M in
  colRow L = colRow M /\ (forall r, mB L r = mB M r) /\
  (forall r c, mE L r c = mE M r c + (if Nat.eqb r k && (Nat.leb (colRow M) c && Nat.ltb c (colRow M + n)) then x else 0) + (if Nat.eqb c k && (Nat.leb (colRow M) r && Nat.ltb r (colRow M + n)) then x else 0)).
Proof.
  intros Hk. induction n; cbv zeta.
  - cbn [loop]. split; [reflexivity|]. split; [reflexivity|]. intros r c.
    assert (Q : forall a, (Nat.leb (colRow M) a && Nat.ltb a (colRow M + 0)) = false).
    { intros a. destruct (Nat.leb_spec (colRow M) a); cbn [andb]; auto. apply Nat.ltb_ge. lia. }
    rewrite !Q, !andb_false_r. ring.
  - cbn [loop]. cbv zeta in IHn. destruct IHn as (I1 & I2 & I3). set (L := loop n _ M) in *. cbn [addE colRow mB mE]. split; [exact I1|]. split; [exact I2|].
    intros r c. unfold upd2. rewrite I1. rewrite !I3.
    clear - Hk. crush.
Qed.
Lemma row_spec k i M : colRow M = nL -> (k < nL)%nat ->
  let M' := oxyLiqRow tab md t p conCols nuL ol oe N m0 0 k i M in
  colRow M' = nL /\ (forall r, mB M' r = mB M r + (if Nat.eqb r k then oB i else 0)) /\
  (forall r c, mE M' r c = mE M r c + (if Nat.eqb r k then rowPart i c else 0) + (if Nat.eqb c k then colPart i r else 0)).
Proof.
  intros Hc Hk. cbv zeta. unfold oxyLiqRow. cbv zeta. set (M1 := addE2 idx k (oX i) (addB k (oB i) M)).
  assert (A1 : colRow M1 = nL /\ (forall r, mB M1 r = mB M r + (if Nat.eqb r k then oB i else 0)) /\
    (forall r c, mE M1 r c = mE M r c + (if Nat.eqb r k && isIdx idx c then oX i else 0) + (if Nat.eqb c k && isIdx idx r then oX i else 0))).
  { assert (Kx : isIdx idx k = false) by (apply isIdx_out; lia).
    unfold M1, addE2. destruct idx as [x|] eqn:Ex.
    - cbn [addE addB colRow mB mE]. split; [exact Hc|]. split; [intros r; unfold upd; destruct (Nat.eqb_spec r k) as [->|]; ring|].
      intros r c. unfold upd2. unfold isIdx in *. rewrite ?Ex in *.
      apply Nat.eqb_neq in Kx. clear - Kx. crush.
    - cbn [addB colRow mB mE]. split; [exact Hc|]. split; [intros r; unfold upd; destruct (Nat.eqb_spec r k) as [->|]; ring|].
      intros r c. unfold isIdx. rewrite ?Ex, !andb_false_r. ring. }
  destruct A1 as (C1 & Bq & Eq). pose proof (inner_n k i M1 (nlc tab) (le_n _)) as I. cbv zeta in I.
  destruct (loop (nlc tab) _ (M1, O)) as [M2 l2]. cbn [fst snd] in I. destruct I as (_ & I2 & I3 & I4).
  pose proof (range_n k (- d1 i) M2 (last - colRow M2) ltac:(lia)) as G. cbv zeta in G.
  set (M3 := loop (last - colRow M2) _ M2) in *. clearbody M3. destruct G as (G1 & G2 & G3). rewrite G1, I2, C1. split; [reflexivity|]. split; [intros r; now rewrite G2, I3, Bq|].
  intros r c. rewrite G3, I4, Eq, I2, C1. replace (nL + (last - nL))%nat with last by lia. rewrite <- B0_n. fold (active B0). unfold rowPart, colPart.
  fold (inR c). fold (inR r).
  assert (X1 : forall a, inR a = true -> isIdx idx a = false) by (intros a H; apply isIdx_out; apply inR_true in H; lia).
  assert (X2 : forall a j, at_ 0 actL a = Some j -> inR a = false /\ isIdx idx a = false).
  { intros a j H. apply at_in in H. split; [|apply isIdx_out; lia]. destruct (inR a) eqn:E; auto. apply inR_true in E. lia. }
  destruct (Nat.eqb r k); cbn [andb].
  - destruct (at_ 0 actL c) as [j|] eqn:Ac.
    + destruct (X2 c j Ac) as [-> ->]. destruct (Nat.eqb c k); cbn [andb]; [|ring]. destruct (inR r) eqn:Er; [rewrite (X1 r Er)|destruct (isIdx idx r)]; ring.
    + destruct (inR c) eqn:Ec; [rewrite (X1 c Ec)|destruct (isIdx idx c)]; (destruct (Nat.eqb c k); cbn [andb]; [|ring]; destruct (inR r) eqn:Er; [rewrite (X1 r Er)|destruct (isIdx idx r)]; ring).
  - destruct (Nat.eqb c k); cbn [andb]; [|ring]. destruct (inR r) eqn:Er; [rewrite (X1 r Er)|destruct (isIdx idx r)]; ring.
Qed.
Lemma rows_n M n : (n <= nlc tab)%nat -> colRow M = nL ->
  let L := loop n (fun i Mk => let '(M, k) := Mk in if zeroR (m0 i) then (M, k) else (oxyLiqRow tab md t p conCols nuL ol oe N m0 0 k i M, S k)) (M, O) in
  snd L = length (upto B0 n) /\ colRow (fst L) = nL /\
  (forall r, mB (fst L) r = mB M r + match at_ 0 (upto B0 n) r with Some i => oB i | None => 0 end) /\
  (forall r c, mE (fst L) r c = mE M r c + match at_ 0 (upto B0 n) r with Some i => rowPart i c | None => 0 end + match at_ 0 (upto B0 n) c with Some i => colPart i r | None => 0 end).
Proof.
  intros Hn Hc. induction n; cbv zeta.
  - cbn [loop fst snd upto]. split; [reflexivity|]. split; [exact Hc|].
    assert (A0 : forall r, at_ 0 (upto B0 0) r = None) by (intros r; unfold at_; cbn; destruct (r - 0)%nat; reflexivity).
    split; intros; rewrite !A0; ring.
  - specialize (IHn ltac:(lia)). cbn [loop]. cbv zeta in IHn. destruct (loop n _ (M, O)) as [M1 k1] eqn:EL. cbn [fst snd] in *. destruct IHn as (I1 & I2 & I3 & I4).
    rewrite upto_S, B0_act. destruct (zeroR (m0 n)) eqn:Z; cbn [negb].
    + cbn [fst snd]. auto.
    + assert (Hk : (k1 < nL)%nat).
      { pose proof (upto_length B0 (S n) (bN B0)) as Q. rewrite B0_n in Q. specialize (Q Hn). rewrite upto_S, B0_act, Z in Q. cbn [negb] in Q. rewrite app_length in Q. cbn [length] in Q. unfold active. rewrite B0_n. lia. }
      destruct (row_spec k1 n M1 I2 Hk) as (R1 & R2 & R3). cbn [fst snd]. rewrite app_length. cbn [length]. split; [lia|]. split; [exact R1|]. split.
      * intros r. rewrite R2, I3, at_snoc, Nat.add_0_l, <- I1. destruct (Nat.eqb_spec r k1) as [->|]; [rewrite at_out by lia|]; ring.
      * intros r c. rewrite R3, I4, !at_snoc, !Nat.add_0_l, <- I1.
        destruct (Nat.eqb_spec r k1) as [->|]; destruct (Nat.eqb_spec c k1) as [->|]; rewrite ?(at_out 0 (upto B0 n) k1) by lia; ring.
Qed.
Lemma liquids_spec M : colRow M = nL ->
  let M' := oxyLiquids tab md t p conCols nuL nuS ol oe s M in
  colRow M' = nL /\ (forall r, mB M' r = mB M r + match at_ 0 actL r with Some i => oB i | None => 0 end) /\
  (forall r c, mE M' r c = mE M r c + match at_ 0 actL r with Some i => rowPart i c | None => 0 end + match at_ 0 actL c with Some i => colPart i r | None => 0 end).
Proof.
  intros Hc. cbv zeta. unfold oxyLiquids. rewrite One. cbn [loop]. pose proof (rows_n M (nlc tab) (le_n _) Hc) as Q. cbv zeta in Q.
  destruct Q as (_ & Q1 & Q2 & Q3).
  assert (EA : upto B0 (nlc tab) = actL) by (unfold active; now rewrite B0_n). rewrite EA in Q2, Q3. auto.
Qed.

(** ** The solids, beside the same loops without the oxygen *)
Notation lB := (oxyLastB md t N).
Definition lastB : R := match md with Isochoric => oxyLastB md t N (oMu ol t p m0) (oP ol t p m0) | _ => oxyLastB md t N (eMu oe) (eT oe) end.
Definition lastE : R := match md with Isochoric => oxyLastE md t N (oMu ol t p m0) (oP ol t p m0) (oPP ol t p m0) | _ => oxyLastE md t N (eMu oe) (eT oe) (eTT oe) end.
Notation sB := (oxySolB md t p ol oe s).
Notation sXX := (oxySolX md t p ol oe s).
Lemma sX_0 : sXX 0 = 0.
Proof. unfold oxySolX. destruct md; ring. Qed.
Lemma sB_0 : sB 0 = 0.
Proof. unfold oxySolB. destruct md; unfold Rdiv; ring. Qed.
(** what has been added once the first solid columns, with the oxygen numbers L, are done *)
Definition DE (L : list R) (r c : nat) : R :=
  match at_ 0 actL r with
  | Some i => match at_ 0 actL c with
              | Some j => oE i j
              | None => if inR c then - d1 i * nth (c - nL) L 1 else if isIdx idx c then oX i else 0 end
  | None => match at_ 0 actL c with
            | Some i => if inR r then - d1 i * nth (r - nL) L 1 else if isIdx idx r then oX i else 0
            | None => if isIdx idx c && inR r then sXX (nth (r - nL) L 0)
                      else if isIdx idx r && inR c then sXX (nth (c - nL) L 0)
                      else if isIdx idx r && isIdx idx c then lastE else 0 end
  end.
Definition DB (L : list R) (r : nat) : R :=
  match at_ 0 actL r with Some i => oB i | None => if inR r then sB (nth (r - nL) L 0) else if isIdx idx r then lastB else 0 end.
Record Sim (L : list R) (M M' : Mats) : Prop := mkSim {
  simC : colRow M = colRow M';
  simE : forall r c, mE M r c = mE M' r c + DE L r c;
  simB : forall r, mB M r = mB M' r + DB L r;
  simZ : forall r c, (r < nL)%nat -> inR c = true -> mE M' r c = 0 /\ mE M' c r = 0 }.
Lemma sim_add L M M' K K' X Y : Sim L M M' -> colRow K = colRow K' ->
  (forall r c, mE K r c = mE M r c + X r c) -> (forall r c, mE K' r c = mE M' r c + X r c) ->
  (forall r, mB K r = mB M r + Y r) -> (forall r, mB K' r = mB M' r + Y r) ->
  (forall r c, (r < nL)%nat -> inR c = true -> X r c = 0 /\ X c r = 0) -> Sim L K K'.
Proof.
  intros [S1 S2 S3 S4] C E1 E2 Y1 Y2 Z. split; auto.
  - intros r c. rewrite E1, E2, S2. ring.
  - intros r. rewrite Y1, Y2, S3. ring.
  - intros r c Hr Hc. rewrite !E2. destruct (S4 r c Hr Hc) as [-> ->], (Z r c Hr Hc) as [-> ->]. split; ring.
Qed.
Lemma mul_n row nu M n : (n <= row)%nat ->
  let K := loop n (fun k M => mulE k row nu (mulE row k nu M)) M in
  colRow K = colRow M /\ (forall r, mB K r = mB M r) /\
  (forall r c, mE K r c = mE M r c * (if (Nat.eqb r row && Nat.ltb c n) || (Nat.eqb c row && Nat.ltb r n) then nu else 1)).
Proof.
  intros Hn. induction n; cbv zeta.
  - cbn [loop]. split; [reflexivity|]. split; [reflexivity|]. intros r c. crush.
  - cbn [loop]. specialize (IHn ltac:(lia)). cbv zeta in IHn. destruct IHn as (I1 & I2 & I3). set (K := loop n _ M) in *. cbn [mulE colRow mB mE]. split; [exact I1|]. split; [exact I2|].
    intros r c. unfold upd2. rewrite !I3. clear - Hn. crush.
Qed.
Lemma liqCols_nL : liqCols tab s = nL.
Proof.
  unfold liqCols. rewrite One. cbn [loop]. assert (Q : forall n, loop n (fun j k => if zeroR (m0 j) then k else S k) O = length (upto B0 n)).
  { induction n; [reflexivity|]. cbn [loop]. rewrite IHn, upto_S, B0_act. destruct (zeroR (m0 n)); cbn [negb]; [reflexivity|]. rewrite app_length. cbn [length]. lia. }
  rewrite Q. unfold active. now rewrite B0_n.
Qed.
Lemma nth_snoc (L : list R) x d k : nth k (L ++ [x]) d = if Nat.eqb k (length L) then x else nth k L d.
Proof.
  destruct (Nat.eqb_spec k (length L)) as [->|Hk]; [rewrite app_nth2, Nat.sub_diag by lia; reflexivity|].
  destruct (Nat.lt_ge_cases k (length L)); [now rewrite app_nth1|]. rewrite !nth_overflow; auto; rewrite ?app_length; cbn; lia.
Qed.
Lemma at_nL r i : at_ 0 actL r = Some i -> (r < nL)%nat.
Proof. intros H. apply at_in in H. lia. Qed.
Lemma at_nL0 r : at_ 0 actL r = None -> (nL <= r)%nat.
Proof. unfold at_. cbn [Nat.leb]. rewrite Nat.sub_0_r. apply nth_error_None. Qed.
Lemma sim_hook L M M' nu row : Sim L M M' -> row = (nL + length L)%nat -> (row < last)%nat ->
  Sim (L ++ [nu]) (oxySolWith tab md t p conCols ol oe s nu row M) M'.
Proof.
  intros [S1 S2 S3 S4] Er Hr. unfold oxySolWith. cbv zeta. rewrite liqCols_nL. set (M1 := addE2 idx row (sXX nu) (addB row (sB nu) M)).
  assert (A1 : colRow M1 = colRow M /\ (forall r, mB M1 r = mB M r + (if Nat.eqb r row then sB nu else 0)) /\
    (forall r c, mE M1 r c = mE M r c + (if Nat.eqb r row && isIdx idx c then sXX nu else 0) + (if Nat.eqb c row && isIdx idx r then sXX nu else 0))).
  { assert (Kx : isIdx idx row = false) by (apply isIdx_out; lia).
    unfold M1, addE2. destruct idx as [x|] eqn:Ex.
    - cbn [addE addB colRow mB mE]. split; [reflexivity|]. split; [intros r; unfold upd; destruct (Nat.eqb_spec r row) as [->|]; ring|].
      intros r c. unfold upd2. unfold isIdx in *. rewrite ?Ex in *. apply Nat.eqb_neq in Kx. clear - Kx. crush.
    - cbn [addB colRow mB mE]. split; [reflexivity|]. split; [intros r; unfold upd; destruct (Nat.eqb_spec r row) as [->|]; ring|].
      intros r c. unfold isIdx. rewrite ?Ex, !andb_false_r. ring. }
  destruct A1 as (C1 & B1 & E1). clearbody M1. pose proof (mul_n row nu M1 nL ltac:(lia)) as G. cbv zeta in G.
  set (M3 := loop nL _ M1) in *. clearbody M3. destruct G as (G1 & G2 & G3).
  assert (X1 : forall a, inR a = true -> isIdx idx a = false) by (intros a H; apply isIdx_out; apply inR_true in H; lia).
  assert (Rr : inR row = true) by (apply inR_true; lia).
  split; auto; [congruence| |].
  - intros r c. rewrite G3, E1, S2. unfold DE. rewrite !nth_snoc.
    destruct (at_ 0 actL r) as [i|] eqn:Ar; destruct (at_ 0 actL c) as [j|] eqn:Ac.
    + apply at_nL in Ar, Ac. replace (r =? row)%nat with false by (symmetry; apply Nat.eqb_neq; lia). replace (c =? row)%nat with false by (symmetry; apply Nat.eqb_neq; lia). cbn [andb orb]. ring.
    + apply at_nL in Ar. apply at_nL0 in Ac. replace (r =? row)%nat with false by (symmetry; apply Nat.eqb_neq; lia). cbn [andb orb].
      rewrite (isIdx_out r) by lia. rewrite andb_false_r. replace (r <? nL)%nat with true by (symmetry; now apply Nat.ltb_lt). rewrite andb_true_r.
      destruct (Nat.eqb_spec c row) as [->|Nc].
      * rewrite Rr. replace (row - nL =? length L)%nat with true by (symmetry; apply Nat.eqb_eq; lia). destruct (S4 r row Ar Rr) as [-> _]. rewrite (nth_overflow L) by lia. ring.
      * destruct (inR c) eqn:Rc; [|ring]. apply inR_true in Rc. replace (c - nL =? length L)%nat with false by (symmetry; apply Nat.eqb_neq; lia). ring.
    + apply at_nL in Ac. apply at_nL0 in Ar. replace (c =? row)%nat with false by (symmetry; apply Nat.eqb_neq; lia). cbn [andb].
      rewrite (isIdx_out c) by lia. rewrite andb_false_r, orb_false_r. replace (c <? nL)%nat with true by (symmetry; now apply Nat.ltb_lt). rewrite andb_true_r.
      destruct (Nat.eqb_spec r row) as [->|Nr].
      * rewrite Rr. replace (row - nL =? length L)%nat with true by (symmetry; apply Nat.eqb_eq; lia). destruct (S4 c row Ac Rr) as [_ ->]. rewrite (nth_overflow L) by lia. ring.
      * destruct (inR r) eqn:Rc; [|ring]. apply inR_true in Rc. replace (r - nL =? length L)%nat with false by (symmetry; apply Nat.eqb_neq; lia). ring.
    + apply at_nL0 in Ar, Ac. replace (r <? nL)%nat with false by (symmetry; apply Nat.ltb_ge; lia). replace (c <? nL)%nat with false by (symmetry; apply Nat.ltb_ge; lia). rewrite !andb_false_r. cbn [orb].
      destruct (Nat.eqb_spec r row) as [->|Nr]; cbn [andb].
      * replace (row - nL =? length L)%nat with true by (symmetry; apply Nat.eqb_eq; lia). rewrite Rr, andb_true_r, (X1 row Rr). cbn [andb]. rewrite (andb_false_r (c =? row)%nat).
        rewrite (nth_overflow L (n := (row - nL)%nat)) by lia. rewrite sX_0. destruct (isIdx idx c); ring.
      * destruct (isIdx idx c && inR r) eqn:Q1.
        -- apply andb_true_iff in Q1. destruct Q1 as [Q1 Q2]. pose proof (X1 r Q2) as Q3. rewrite Q3, andb_false_r. apply inR_true in Q2.
           replace (r - nL =? length L)%nat with false by (symmetry; apply Nat.eqb_neq; lia). ring.
        -- destruct (Nat.eqb_spec c row) as [->|Nc]; cbn [andb].
           ++ rewrite Rr, andb_true_r. replace (row - nL =? length L)%nat with true by (symmetry; apply Nat.eqb_eq; lia). rewrite (X1 row Rr), !andb_false_r.
              rewrite (nth_overflow L (n := (row - nL)%nat)) by lia. rewrite sX_0. destruct (isIdx idx r); ring.
           ++ destruct (isIdx idx r && inR c) eqn:Q2; [|ring]. apply andb_true_iff in Q2. destruct Q2 as [Q2 Q3]. apply inR_true in Q3.
              replace (c - nL =? length L)%nat with false by (symmetry; apply Nat.eqb_neq; lia). ring.
  - intros r. rewrite G2, B1, S3. unfold DB. rewrite nth_snoc. destruct (at_ 0 actL r) as [i|] eqn:Ar.
    + apply at_nL in Ar. replace (r =? row)%nat with false by (symmetry; apply Nat.eqb_neq; lia). ring.
    + apply at_nL0 in Ar. destruct (Nat.eqb_spec r row) as [->|Nr].
      * rewrite Rr. replace (row - nL =? length L)%nat with true by (symmetry; apply Nat.eqb_eq; lia). rewrite nth_overflow by lia. rewrite sB_0. ring.
      * destruct (inR r) eqn:Q; [|ring]. apply inR_true in Q. replace (r - nL =? length L)%nat with false by (symmetry; apply Nat.eqb_neq; lia). ring.
Qed.

Lemma hook_row nu row M : colRow (oxySolWith tab md t p conCols ol oe s nu row M) = colRow M.
Proof.
  unfold oxySolWith. cbv zeta. assert (Q : forall n M, colRow (loop n (fun k M => mulE k row nu (mulE row k nu M)) M) = colRow M) by (induction n; intros; [reflexivity|]; cbn [loop mulE colRow]; auto).
  rewrite Q. unfold addE2. destruct idx; reflexivity.
Qed.
Lemma sim_idx L M M' i r x : Sim L M M' -> idx = Some i -> Sim L (addE i r x (addE r i x M)) (addE i r x (addE r i x M')).
Proof.
  intros S Ei. assert (Q : i = last /\ idx = Some i) by (apply isIdx_last; unfold isIdx; rewrite Ei; apply Nat.eqb_refl).
  set (X := fun a b : nat => (if Nat.eqb a r && Nat.eqb b i then x else 0) + (if Nat.eqb a i && Nat.eqb b r then x else 0)).
  apply (sim_add L M M' _ _ X (fun _ => 0) S); try (cbn; apply (simC L M M' S)).
  - intros a b. cbn [addE mE]. unfold upd2, X. clear. crush.
  - intros a b. cbn [addE mE]. unfold upd2, X. clear. crush.
  - intros a. cbn [addE mB]. ring.
  - intros a. cbn [addE mB]. ring.
  - intros a b Ha Hb. apply inR_true in Hb. unfold X. destruct Q as [Q _]. clear - Q Ha Hb LastOK. split; crush.
Qed.
Lemma sim_ii L M M' i x y : Sim L M M' -> idx = Some i -> Sim L (addE i i x (addB i y M)) (addE i i x (addB i y M')).
Proof.
  intros S Ei. assert (Q : i = last /\ idx = Some i) by (apply isIdx_last; unfold isIdx; rewrite Ei; apply Nat.eqb_refl).
  set (X := fun a b : nat => if Nat.eqb a i && Nat.eqb b i then x else 0). set (Y := fun a : nat => if Nat.eqb a i then y else 0).
  apply (sim_add L M M' _ _ X Y S); try (cbn; apply (simC L M M' S)).
  - intros a b. cbn [addE addB mE]. unfold upd2, X. clear. crush.
  - intros a b. cbn [addE addB mE]. unfold upd2, X. clear. crush.
  - intros a. cbn [addE addB mB]. unfold upd, Y. clear. crush.
  - intros a. cbn [addE addB mB]. unfold upd, Y. clear. crush.
  - intros a b Ha Hb. apply inR_true in Hb. unfold X. destruct Q as [Q _]. clear - Q Ha Hb LastOK. split; crush.
Qed.
Lemma sim_B L M M' r y : Sim L M M' -> Sim L (addB r y M) (addB r y M').
Proof.
  intros S. set (Y := fun a : nat => if Nat.eqb a r then y else 0).
  apply (sim_add L M M' _ _ (fun _ _ => 0) Y S); try (cbn; apply (simC L M M' S)); auto.
  - intros a b. cbn. ring.
  - intros a b. cbn. ring.
  - intros a. cbn [addB mB]. unfold upd, Y. clear. crush.
  - intros a. cbn [addB mB]. unfold upd, Y. clear. crush.
Qed.
Lemma sim_row L M M' B j k : Sim L M M' -> (nL <= colRow M)%nat -> (colRow M + length (active B) <= last)%nat ->
  Sim L (fillRow true B j k M) (fillRow true B j k M').
Proof.
  intros S Hc Hl. destruct (fillRow_spec true B j k M) as (F1 & F2 & F3). destruct (fillRow_spec true B j k M') as (F1' & F2' & F3').
  rewrite <- (simC L M M' S) in *. apply (sim_add L M M' _ _ _ _ S (eq_trans F1 (eq_sym F1')) F2 F2' F3 F3').
  intros a b Ha Hb. apply inR_true in Hb. replace (a =? colRow M + k)%nat with false by (symmetry; apply Nat.eqb_neq; lia). split; auto.
  rewrite at_below by lia. destruct (b =? colRow M + k)%nat; reflexivity.
Qed.
Lemma rows_sim L0 nu B M M' : Sim L0 M M' -> colRow M = (nL + length L0)%nat -> (colRow M + length (active B) <= last)%nat -> forall n, (n <= bN B)%nat ->
  let K := loop n (fun j Mm =>
    let '(M, m) := Mm in
    if zeroR (bM B j) then (M, m)
    else let M := addB (colRow M + m) (- bDp B j) M in
         let M := oxySol tab md t p conCols nuS ol oe os true s (nu j) (colRow M + m) (colRow M) M in
         let M := fillRow true B j m M in
         let M := match idx with Some i => addE i (colRow M + m) (bX B j) (addE (colRow M + m) i (bX B j) M) | None => M end in
         (M, S m)) (M, O) in
  let K' := loop n (fun j Mm =>
    let '(M, m) := Mm in
    if zeroR (bM B j) then (M, m)
    else let M := addB (colRow M + m) (- bDp B j) M in
         let M := fillRow true B j m M in
         let M := match idx with Some i => addE i (colRow M + m) (bX B j) (addE (colRow M + m) i (bX B j) M) | None => M end in
         (M, S m)) (M', O) in
  snd K = length (upto B n) /\ snd K' = length (upto B n) /\ colRow (fst K) = colRow M /\ Sim (L0 ++ map nu (upto B n)) (fst K) (fst K').
Proof.
  intros S0 Hc Hl. induction n; intros Hn; cbv zeta.
  - cbn [loop fst snd upto seq filter map length]. rewrite app_nil_r. auto.
  - cbn [loop]. specialize (IHn ltac:(lia)). cbv zeta in IHn. destruct (loop n _ (M, O)) as [M1 m1]. destruct (loop n _ (M', O)) as [M1' m1']. cbn [fst snd] in *. destruct IHn as (I1 & I2 & I3 & I4).
    rewrite upto_S. unfold isActive. destruct (zeroR (bM B n)) eqn:Z; cbn [negb]; [cbn [fst snd]; auto|].
    assert (Len : (length (upto B n) < length (active B))%nat).
    { pose proof (upto_length B (S n) (bN B) Hn) as Q. rewrite upto_S in Q. unfold isActive in Q. rewrite Z in Q. cbn [negb] in Q. rewrite app_length in Q. cbn in Q. unfold active. lia. }
    rewrite map_app, app_assoc. cbn [map]. cbn [fst snd]. rewrite app_length. cbn [length]. split; [lia|]. split; [lia|].
    pose proof (simC _ _ _ I4) as C1. subst m1 m1'. set (u := length (upto B n)) in *.
    set (M2 := addB (colRow M1 + u) (- bDp B n) M1). set (M2' := addB (colRow M1' + u) (- bDp B n) M1').
    assert (S2 : Sim (L0 ++ map nu (upto B n)) M2 M2') by (unfold M2, M2'; rewrite <- C1; now apply sim_B).
    assert (C2 : colRow M2 = colRow M) by exact I3.
    unfold oxySol. set (M3 := oxySolWith tab md t p conCols ol oe s (nu n) (colRow M2 + u) M2).
    assert (S3 : Sim ((L0 ++ map nu (upto B n)) ++ [nu n]) M3 M2').
    { apply sim_hook; auto; rewrite ?C2; [rewrite app_length, map_length; fold u; lia|lia]. }
    assert (C3 : colRow M3 = colRow M) by (unfold M3; rewrite hook_row; exact C2).
    set (M4 := fillRow true B n u M3). set (M4' := fillRow true B n u M2').
    assert (S4 : Sim ((L0 ++ map nu (upto B n)) ++ [nu n]) M4 M4') by (apply sim_row; auto; lia).
    assert (C4 : colRow M4 = colRow M) by (unfold M4; rewrite (proj1 (fillRow_spec true B n u M3)); exact C3).
    pose proof (simC _ _ _ S4) as C4'. rewrite <- C4'. destruct idx as [i|] eqn:Ei; [|split; [exact C4|exact S4]].
    split; [exact C4|]. apply sim_idx; auto.
Qed.
Lemma mix_sim L nu B M M' : Sim L M M' -> colRow M = (nL + length L)%nat -> (colRow M + length (active B) <= last)%nat ->
  let K := fillMixO tab md t p conCols nuS ol oe os true s nu B M in
  Sim (L ++ map nu (active B)) K (fillMix true idx B M') /\ colRow K = (colRow M + length (active B))%nat.
Proof.
  intros S Hc Hl. pose proof (rows_sim L nu B M M' S Hc Hl (bN B) (le_n _)) as Q. cbv zeta in Q. cbv zeta. unfold fillMixO, fillRowsO, fillMix, fillRows.
  destruct (loop (bN B) _ (M, O)) as [M1 m1]. destruct (loop (bN B) _ (M', O)) as [M1' m1']. cbn [fst snd] in Q. destruct Q as (-> & -> & Q1 & Q2). fold (active B) in *.
  set (u := length (active B)) in *.
  assert (S5 : Sim (L ++ map nu (active B)) (mkMats (mE M1) (mB M1) (colRow M1 + u)) (mkMats (mE M1') (mB M1') (colRow M1' + u))).
  { destruct Q2 as [A1 A2 A3 A4]. split; cbn [colRow mE mB]; auto; congruence. }
  destruct idx as [i|] eqn:Ei.
  - split; [|cbn [addE addB colRow]; lia]. apply (sim_ii _ _ _ i _ _ S5 Ei).
  - split; [exact S5|cbn [colRow]; lia].
Qed.
Lemma pure_sim L nu B M M' : Sim L M M' -> colRow M = (nL + length L)%nat -> (colRow M + 1 <= last)%nat ->
  let K := fillPureO tab md t p conCols nuS ol oe os true s nu B M in
  Sim (L ++ [nu]) K (fillPure idx B M') /\ colRow K = (colRow M + 1)%nat.
Proof.
  intros S Hc Hl. cbv zeta. unfold fillPureO, fillPure. pose proof (simC L M M' S) as C. rewrite <- C.
  set (M1 := addB (colRow M) (- bDp B O) M). set (M1' := addB (colRow M) (- bDp B O) M'). assert (S1 : Sim L M1 M1') by now apply sim_B.
  assert (C1 : colRow M1 = colRow M) by reflexivity. assert (C1' : colRow M1' = colRow M) by (symmetry; exact C). rewrite C1, C1'.
  assert (G : exists M2 M2', Sim L M2 M2' /\ colRow M2 = colRow M /\
     match idx with Some i => addE i i (bTT B) (addE i (colRow M) (bX B O) (addE (colRow M) i (bX B O) (addB i (- bT B) M1))) | None => M1 end = M2 /\
     match idx with Some i => addE i i (bTT B) (addE i (colRow M) (bX B O) (addE (colRow M) i (bX B O) (addB i (- bT B) M1'))) | None => M1' end = M2').
  { eexists _, _. split; [|split; [|split; reflexivity]]; [|destruct idx; reflexivity].
    destruct idx as [i|] eqn:Ei; [|exact S1].
    assert (S2 : Sim L (addE i (colRow M) (bX B O) (addE (colRow M) i (bX B O) (addB i (- bT B) M1))) (addE i (colRow M) (bX B O) (addE (colRow M) i (bX B O) (addB i (- bT B) M1')))).
    { apply sim_idx; auto. now apply sim_B. }
    pose proof (sim_ii L _ _ i (bTT B) 0 S2 Ei) as S3. destruct S3 as [A1 A2 A3 A4]. split; auto. intros r. specialize (A3 r). cbn [addE addB mB] in *. unfold upd in *.
    destruct (r =? i)%nat eqn:Er; rewrite ?Er in A3; auto. apply Nat.eqb_eq in Er. subst r. rewrite !Nat.eqb_refl in *. revert A3. rewrite !Rplus_0_r. auto. }
  destruct G as (M2 & M2' & S2 & C2 & -> & ->). pose proof (simC _ _ _ S2) as C2'. unfold oxySol. rewrite C2.
  pose proof (sim_hook L M2 M2' nu (colRow M) S2 Hc ltac:(lia)) as S3. cbn [colRow]. rewrite hook_row, C2. split; [|lia].
  destruct S3 as [A1 A2 A3 A4]. split; cbn [colRow mE mB]; auto. lia.
Qed.

(** ** All of them *)
Notation Bk := (Bk tab md t p liqX liqStd solX solStd).
Notation act := (act tab md t p liqX liqStd solX solStd).
Notation plc l := (places Id (act s) l).
Definition nuId (d : Id) (j : nat) : R := match d with IL _ => nuL j | IP i => nuS i | IS i _ => nuS (i + 1 + j)%nat end.
Definition nuP (a : Id * nat) : R := nuId (fst a) (snd a).
Definition Lof (l : list Id) : list R := map nuP (plc l).
Hypothesis HasL : hasLiquid s = true.
Lemma idsL_one : idsL s = [IL 0].
Proof. unfold idsL. rewrite HasL, One. reflexivity. Qed.
Hypothesis Room : (length (plc (ids tab s)) <= last)%nat.
Lemma Lof_app l l' : Lof (l ++ l') = Lof l ++ Lof l'.
Proof. unfold Lof, places. now rewrite flat_map_app, map_app. Qed.
Lemma Lof_one d : Lof [d] = map (nuId d) (act s d).
Proof. unfold Lof, places. cbn [flat_map]. rewrite app_nil_r, map_map. reflexivity. Qed.
Lemma len_ids : length (plc (ids tab s)) = (nL + length (Lof (idsS tab s (npc tab))))%nat.
Proof. unfold ids. rewrite idsL_one. unfold Lof. rewrite map_length. unfold places. rewrite flat_map_app, app_length. cbn [flat_map]. rewrite app_nil_r, map_length. reflexivity. Qed.
Definition inv (l : list Id) (MM : Mats * Mats) : Prop := Sim (Lof l) (fst MM) (snd MM) /\ colRow (fst MM) = (nL + length (Lof l))%nat.
Lemma loop2 {A B} n (f : nat -> A -> A) (g : nat -> B -> B) x y : (loop n f x, loop n g y) = loop n (fun k z => (f k (fst z), g k (snd z))) (x, y).
Proof. induction n; [reflexivity|]. cbn [loop]. rewrite <- IHn. reflexivity. Qed.
Lemma inv_run l0 i cnt l1 MM : na tab i <> 1%nat -> idsS tab s (npc tab) = l0 ++ map (IS i) (seq 0 cnt) ++ l1 -> inv l0 MM ->
  inv (l0 ++ map (IS i) (seq 0 cnt))
    (loop cnt (fun n => fillMixO tab md t p conCols nuS ol oe os true s (fun j => nuS (i + 1 + j)%nat) (solBlock tab md t p solX solStd s i n)) (fst MM),
     loop cnt (fun n => fillMix true idx (solBlock tab md t p solX solStd s i n)) (snd MM)).
Proof.
  intros Na E F. rewrite loop2. destruct MM as [M M']. apply (loop_inv (fun k MM => inv (l0 ++ map (IS i) (seq 0 k)) MM)); [cbn; now rewrite app_nil_r|].
  intros k [K K'] Hk [F1 F2]. cbn [fst snd] in *. rewrite seq_S, map_app, app_assoc. cbn [map Nat.add]. set (l := l0 ++ map (IS i) (seq 0 k)) in *.
  assert (Rm : (colRow K + length (act s (IS i k)) <= last)%nat).
  { assert (E2 : idsS tab s (npc tab) = l ++ [IS i k] ++ (map (IS i) (seq (S k) (cnt - S k)) ++ l1)).
    { rewrite E, (seq_split cnt k Hk), !map_app. unfold l. cbn [map]. now rewrite <- !app_assoc. }
    rewrite F2. pose proof Room as Q. rewrite len_ids, E2, Lof_app, Lof_app, Lof_one, !app_length, map_length in Q. lia. }
  destruct (mix_sim (Lof l) (fun j => nuS (i + 1 + j)%nat) (solBlock tab md t p solX solStd s i k) K K' F1 F2 Rm) as [Q1 Q2].
  split; cbn [fst snd]; rewrite Lof_app, Lof_one; [exact Q1|]. rewrite Q2, F2, app_length, map_length. cbn [HessProofs.act HessProofs.Bk]. lia.
Qed.
Theorem oxy_sim : Sim (Lof (idsS tab s (npc tab))) (gradHessO tab md t p conCols nuL nuS ol oe os liqX liqStd solX solStd true s)
    (baseHess tab md t p liqX liqStd solX solStd conCols true s).
Proof.
  unfold gradHessO, baseHess. cbv zeta. rewrite One at 1 2. cbn [loop].
  set (Z0 := mkMats (fun _ _ => 0) (fun _ => 0) 0). set (M1 := fillMix true idx B0 Z0).
  assert (Ix : forall i, idx = Some i -> (colRow Z0 + nL <= i)%nat).
  { intros i Ei. cbn [colRow Z0]. assert (Q : i = last /\ idx = Some i) by (apply isIdx_last; unfold isIdx; rewrite Ei; apply Nat.eqb_refl). lia. }
  destruct (fillMix_spec true idx B0 Z0 Ix) as (F1 & F2 & F3). fold M1 in F1, F2, F3. change (colRow Z0) with O in *. rewrite Nat.add_0_l in F1.
  destruct (liquids_spec M1 F1) as (L1 & L2 & L3). set (M2 := oxyLiquids tab md t p conCols nuL nuS ol oe s M1) in *.
  set (M3 := oxyLast tab md t p conCols nuL nuS ol oe os true s M2).
  assert (A3 : colRow M3 = nL /\ (forall r, mB M3 r = mB M2 r + (if isIdx idx r then lastB else 0)) /\ (forall r c, mE M3 r c = mE M2 r c + (if isIdx idx r && isIdx idx c then lastE else 0))).
  { unfold M3, oxyLast. rewrite One. cbn [loop]. unfold isIdx. destruct idx as [i|] eqn:Ei; [|cbn [andb]; split; [exact L1|]; split; intros; ring].
    unfold lastB, lastE. destruct md; cbn [addE addB colRow mB mE]; (split; [exact L1|]; split; intros; unfold upd, upd2; crush). }
  destruct A3 as (C3 & B3 & E3). clearbody M3.
  assert (Start : inv [] (M3, M1)).
  { split; cbn [fst snd]; [|unfold Lof; cbn; lia]. unfold Lof. cbn [places flat_map map].
    assert (X2 : forall a j, at_ 0 actL a = Some j -> inR a = false /\ isIdx idx a = false).
    { intros a j H. apply at_in in H. split; [|apply isIdx_out; lia]. destruct (inR a) eqn:E; auto. apply inR_true in E. lia. }
    split.
    - congruence.
    - intros r c. rewrite E3, L3. unfold DE, rowPart, colPart. assert (Nn : forall k d, nth k (@nil R) d = d) by (intros k d; destruct k; reflexivity). rewrite !Nn, sX_0.
      destruct (at_ 0 actL r) as [i|] eqn:Ar; destruct (at_ 0 actL c) as [j|] eqn:Ac.
      + destruct (X2 r i Ar) as [Y1 Y2]. rewrite ?Y1, ?Y2. cbn [andb]. ring.
      + destruct (X2 r i Ar) as [Y1 Y2]. rewrite ?Y1, ?Y2. cbn [andb]. destruct (inR c); [ring|]. destruct (isIdx idx c); ring.
      + destruct (X2 c j Ac) as [Y1 Y2]. rewrite ?Y1, ?Y2. rewrite andb_false_r. destruct (inR r); [ring|]. destruct (isIdx idx r); ring.
      + destruct (isIdx idx c) eqn:Q1; destruct (isIdx idx r) eqn:Q2; cbn [andb]; destruct (inR r) eqn:Q3; destruct (inR c) eqn:Q4; try ring.
        * apply inR_true in Q3. rewrite isIdx_out in Q2 by lia. discriminate.
        * apply inR_true in Q3. rewrite isIdx_out in Q2 by lia. discriminate.
        * apply inR_true in Q4. rewrite isIdx_out in Q1 by lia. discriminate.
    - intros r. rewrite B3, L2. unfold DB. assert (Nn : forall k d, nth k (@nil R) d = d) by (intros k d; destruct k; reflexivity). rewrite Nn, sB_0.
      destruct (at_ 0 actL r) as [i|] eqn:Ar; [destruct (X2 r i Ar) as [_ ->]; ring|]. destruct (inR r) eqn:Q; [apply inR_true in Q; rewrite isIdx_out by lia; ring|destruct (isIdx idx r); ring].
    - intros r c Hr Hc. apply inR_true in Hc. rewrite !F2. cbn [mE Z0]. unfold wholeE. rewrite (at_out 0 actL c) by lia. rewrite (isIdx_out c), (isIdx_out r) by lia. cbn [andb].
      destruct (at_ 0 actL r); split; ring. }
  assert (End_ : inv (idsS tab s (npc tab)) (loop (npc tab) (fun i M => if (0 <? nSol s i)%nat then if (na tab i =? 1)%nat then fillPureO tab md t p conCols nuS ol oe os true s (nuS i) (pureBlock md t p (solStd i) (fun _ => solC s i O)) M
        else loop (nSol s i) (fun n => fillMixO tab md t p conCols nuS ol oe os true s (fun j => nuS (i + 1 + j)%nat) (solBlock tab md t p solX solStd s i n)) M else M) M3,
     loop (npc tab) (fun i M => if (0 <? nSol s i)%nat then if (na tab i =? 1)%nat then fillPure idx (pureBlock md t p (solStd i) (fun _ => solC s i O)) M
        else loop (nSol s i) (fun n => fillMix true idx (solBlock tab md t p solX solStd s i n)) M else M) M1)).
  { rewrite loop2. apply (loop_inv (fun k MM => inv (idsS tab s k) MM)); [exact Start|].
    intros k [K K'] Hk F. cbn [fst snd]. destruct (idsS_split tab s k Hk) as [l El].
    unfold HessProofs.idsS at 1. rewrite seq_S, flat_map_app. cbn [Nat.add flat_map]. rewrite app_nil_r. fold (HessProofs.idsS tab s k).
    unfold HessProofs.idsP in *. destruct (Nat.ltb 0 (nSol s k)); [|now rewrite app_nil_r]. destruct (Nat.eqb_spec (na tab k) 1) as [N1|N1].
    - destruct F as [G1 G2]. cbn [fst snd] in *.
      assert (Rm : (colRow K + 1 <= last)%nat). { rewrite G2. pose proof Room as Q. rewrite len_ids, El, !Lof_app, !app_length, Lof_one, map_length in Q. cbn [HessProofs.act length] in Q. lia. }
      destruct (pure_sim (Lof (HessProofs.idsS tab s k)) (nuS k) (pureBlock md t p (solStd k) (fun _ => solC s k O)) K K' G1 G2 Rm) as [Q1 Q2].
      split; cbn [fst snd]; rewrite Lof_app, Lof_one; [exact Q1|]. rewrite Q2, G2, app_length. cbn. lia.
    - exact (inv_run (HessProofs.idsS tab s k) k (nSol s k) l (K, K') N1 El F). }
  exact (proj1 End_).
Qed.
End Fill.
