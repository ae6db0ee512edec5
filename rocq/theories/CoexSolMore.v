(** What a call of checkForCoexistingSolids does to the system: C152-C154. *)
From Coq Require Import Reals List Bool Arith Lia Lra.
From Verif Require Import MassModel MassSpec MassProofs MassOps MassDrop MassProps NashModel NashProps CoexModel CoexProps CoexSolModel CoexSolProps.
Import List ListNotations.
Open Scope R_scope.

(** every cell after an instance has been added *)
Section Cells.
Variable tab : Tab.
Variables (i : nat) (m : nat -> R) (a : R) (s : St).
Notation ns := (nSol s i).
Hypothesis Ns : (0 < ns)%nat.
Definition cell (w : R) (c col : nat) : R :=
  if Nat.eqb col ns then w else if negb (hasLiquid s) && Nat.eqb col (ns - 1) then solC s c col - w else solC s c col.
Lemma addSecondSolid_cells : let s' := addSecondSolid tab i m a s in
  nSol s' = upd (nSol s) i (S ns) /\ hasLiquid s' = hasLiquid s /\ nLiq s' = nLiq s /\
  (forall c col, solC s' c col = if Nat.eqb c i then cell a c col else if Nat.ltb i c && Nat.leb c (i + na tab i) then cell (m (c - i - 1)%nat * a) c col else solC s c col) /\
  (forall nl j, liqC s' nl j = if hasLiquid s && (Nat.eqb nl 0 && Nat.ltb j (nlc tab)) then liqC s nl j - sum (na tab i) (fun k => solToLiq tab (i + 1 + k) j * (m k * a)) else liqC s nl j).
Proof.
  unfold addSecondSolid. cbv zeta.
  set (s2 := setSol i ns a (setNSol (upd (nSol s) i (S ns)) s)).
  set (s3 := if hasLiquid s2 then s2 else setSol i (ns - 1) (solC s2 i (ns - 1)%nat - a) s2).
  assert (A3 : nSol s3 = upd (nSol s) i (S ns) /\ hasLiquid s3 = hasLiquid s /\ nLiq s3 = nLiq s /\ liqC s3 = liqC s /\
    forall c col, solC s3 c col = if Nat.eqb c i then cell a c col else solC s c col).
  { unfold s3. change (hasLiquid s2) with (hasLiquid s). destruct (hasLiquid s) eqn:HL.
    - split; [reflexivity|]. split; [exact HL|]. split; [reflexivity|]. split; [reflexivity|]. intros c col. unfold s2, cell, upd2. cbn [solC setSol setSolC setNSol]. unfold upd2. rewrite HL. cbn [negb andb].
      destruct (Nat.eqb_spec c i) as [->|]; cbn [andb]; [|reflexivity]. reflexivity.
    - split; [reflexivity|]. split; [exact HL|]. split; [reflexivity|]. split; [reflexivity|]. intros c col. unfold s2, cell. cbn [solC setSol setSolC setNSol]. unfold upd2. rewrite HL. cbn [negb andb].
      destruct (Nat.eqb_spec c i) as [->|]; cbn [andb]; [|reflexivity]. rewrite !Nat.eqb_refl. cbn [andb].
      destruct (Nat.eqb_spec col (ns - 1)) as [->|]; [|reflexivity]. destruct (Nat.eqb_spec (ns - 1) ns); [lia|]. reflexivity. }
  clearbody s3. clear s2. destruct A3 as (N3 & H3 & L3 & Q3 & C3).
  match goal with |- context [loop (na tab i) ?f s3] => set (F := f) end.
  assert (P : forall k, let u := loop k F s3 in
    nSol u = upd (nSol s) i (S ns) /\ hasLiquid u = hasLiquid s /\ nLiq u = nLiq s /\
    (forall c col, solC u c col = if Nat.eqb c i then cell a c col else if Nat.ltb i c && Nat.leb c (i + k) then cell (m (c - i - 1)%nat * a) c col else solC s c col) /\
    (forall nl j, liqC u nl j = if hasLiquid s && (Nat.eqb nl 0 && Nat.ltb j (nlc tab)) then liqC s nl j - sum k (fun k => solToLiq tab (i + 1 + k) j * (m k * a)) else liqC s nl j)).
  { induction k; cbv zeta.
    - cbn [loop]. split; [exact N3|]. split; [exact H3|]. split; [exact L3|]. split.
      + intros c col. rewrite C3. destruct (Nat.eqb_spec c i); [reflexivity|]. destruct (Nat.ltb_spec i c), (Nat.leb_spec c (i + 0)); cbn [andb]; try reflexivity. lia.
      + intros nl j. rewrite Q3. cbn [sum]. destruct (_ && _); [ring|reflexivity].
    - rewrite loop_S. cbv zeta in IHk. destruct IHk as (A & B & C & D & E). set (u := loop k F s3) in *. clearbody u. unfold F. cbn [hasLiquid setSol setSolC]. rewrite B.
      assert (Dc : forall col, solC u (i + 1 + k)%nat col = solC s (i + 1 + k)%nat col).
      { intros col. rewrite D. destruct (Nat.eqb_spec (i + 1 + k) i); [lia|]. destruct (Nat.ltb_spec i (i + 1 + k)), (Nat.leb_spec (i + 1 + k) (i + k)); cbn [andb]; try reflexivity; lia. }
      destruct (hasLiquid s) eqn:HL.
      + cbn [nSol hasLiquid nLiq solC liqC addLiq setLiqC setSol setSolC]. split; [exact A|]. split; [exact B|]. split; [exact C|]. split.
        * intros c col. unfold upd2. destruct (Nat.eqb_spec c (i + 1 + k)) as [->|Nc]; cbn [andb].
          -- destruct (Nat.eqb_spec (i + 1 + k) i); [lia|]. destruct (Nat.ltb_spec i (i + 1 + k)), (Nat.leb_spec (i + 1 + k) (i + S k)); try lia. cbn [andb]. unfold cell. rewrite HL. cbn [negb andb].
             replace (i + 1 + k - i - 1)%nat with k by lia. destruct (Nat.eqb_spec col ns); [reflexivity|apply Dc].
          -- rewrite D. destruct (Nat.eqb_spec c i); [reflexivity|]. destruct (Nat.ltb_spec i c), (Nat.leb_spec c (i + k)), (Nat.leb_spec c (i + S k)); cbn [andb]; try reflexivity; lia.
        * intros nl j. rewrite E. cbn [andb]. unfold upd2. rewrite !Nat.eqb_refl. cbn [andb sum]. destruct (Nat.eqb nl 0 && Nat.ltb j (nlc tab)); [ring|reflexivity].
      + cbn [nSol hasLiquid nLiq solC liqC setSol setSolC]. split; [exact A|]. split; [exact B|]. split; [exact C|]. split.
        * intros c col. unfold upd2. destruct (Nat.eqb_spec c (i + 1 + k)) as [->|Nc]; cbn [andb].
          -- destruct (Nat.eqb_spec (i + 1 + k) i); [lia|]. destruct (Nat.ltb_spec i (i + 1 + k)), (Nat.leb_spec (i + 1 + k) (i + S k)); try lia. cbn [andb]. unfold cell. rewrite HL. cbn [negb andb].
             replace (i + 1 + k - i - 1)%nat with k by lia. rewrite !Nat.eqb_refl. cbn [andb]. destruct (Nat.eqb_spec col (ns - 1)) as [->|].
             ++ destruct (Nat.eqb_spec (ns - 1) ns); [lia|]. now rewrite Dc.
             ++ destruct (Nat.eqb_spec col ns); [reflexivity|apply Dc].
          -- rewrite D. destruct (Nat.eqb_spec c i); [reflexivity|]. destruct (Nat.ltb_spec i c), (Nat.leb_spec c (i + k)), (Nat.leb_spec c (i + S k)); cbn [andb]; try reflexivity; lia.
        * intros nl j. rewrite E. reflexivity. }
  exact (P (na tab i)).
Qed.
End Cells.

Section Call.
Variable tab : Tab.
Variable solid : nat -> Solid.
Variable kind : nat -> Kind.
Variables t p : R.
Variable h0 : nat -> R.
Hypothesis Lay : layout tab.
Hypothesis Ph : forall i, (i < npc tab)%nat -> (1 < na tab i)%nat -> isPhase tab i = true.
Notation visit := (visit tab solid kind t p h0).
Notation visits := (visits tab solid kind t p h0).
Notation checkSolids := (checkSolids tab solid kind t p h0).

(** one phase: nothing, or one instance of some composition *)
Lemma visit_cases i s s' f : visit i s s' f ->
  (s' = s /\ f = false) \/
  (f = true /\ (1 < na tab i)%nat /\ blocked (kind i) (nSol s i) = false /\ (0 < nSol s i)%nat /\
   exists x a, amountOf tab i (sX (solid i) x) s a /\ s' = addSecondSolid tab i (sX (solid i) x) a s).
Proof.
  intros V. unfold CoexSolModel.visit in V. destruct (Nat.leb_spec (na tab i) 1) as [|N1]; [now left|]. destruct (blocked (kind i) (nSol s i)) eqn:Bl; [now left|].
  destruct V as ([x|] & Sc & V); [|now left]. right. destruct V as (a & Am & E & Ef). split; [exact Ef|]. split; [exact N1|]. split; [reflexivity|]. split.
  - destruct (scan_someS _ _ _ _ _ _ Sc) as (q & k & I & _). unfold instances in I. destruct (nSol s i); [destruct I|lia].
  - exists x, a. split; assumption.
Qed.
Lemma amountIn_range i x s a b : 0 < a -> amountIn tab i x s a b -> 0 < b <= a /\ liquidOK tab (CoexSolModel.drawn tab i x b s) = true.
Proof. intros P A. induction A as [a E|a b E A IH]; [split; [lra|exact E]|]. destruct (IH ltac:(lra)) as (IH1 & IH2). split; [lra|exact IH2]. Qed.
Lemma amountOf_range i x s a : amountOf tab i x s a -> 0 < a <= MassModel.MASSIN /\ (hasLiquid s = true -> liquidOK tab (CoexSolModel.drawn tab i x a s) = true).
Proof.
  unfold amountOf. assert (M : 0 < MassModel.MASSIN) by (unfold MassModel.MASSIN; lra). destruct (hasLiquid s).
  - intros A. destruct (amountIn_range _ _ _ _ _ M A). split; auto.
  - intros ->. split; [lra|discriminate].
Qed.

(** ** C152 *)
Definition limit (k : Kind) (n : nat) : nat := match k with Orthopyroxene => n | Feldspar => max 2 n | Clinopyroxene => max 3 n | OtherSolid => S n end.
Lemma visit_counts i s s' f : visit i s s' f -> (forall j, j <> i -> nSol s' j = nSol s j) /\ (nSol s i <= nSol s' i <= S (nSol s i))%nat /\ (nSol s' i <= limit (kind i) (nSol s i))%nat /\
  (nSol s i = 0%nat -> nSol s' i = 0%nat) /\ (f = true <-> nSol s' i <> nSol s i).
Proof.
  intros V. destruct (visit_cases i s s' f V) as [(-> & ->)|(-> & N1 & Bl & Pos & x & a & Am & ->)].
  - split; [reflexivity|]. split; [lia|]. split; [unfold limit; destruct (kind i); lia|]. split; [auto|]. split; [discriminate|congruence].
  - destruct (addSecondSolid_cells tab i (sX (solid i) x) a s Pos) as (N & _). rewrite N. unfold upd. rewrite !Nat.eqb_refl. split.
    { intros j Nj. destruct (Nat.eqb_spec j i); [contradiction|reflexivity]. }
    split; [lia|]. split; [|split; [lia|split; [intros _; lia|reflexivity]]].
    unfold blocked in Bl. unfold limit. destruct (kind i); [discriminate Bl|apply Nat.leb_gt in Bl; lia|apply Nat.leb_gt in Bl; lia|lia].
Qed.
Lemma visits_counts l s s' f : NoDup l -> visits l s s' f -> (forall j, ~ In j l -> nSol s' j = nSol s j) /\
  (forall i, (nSol s i <= nSol s' i <= S (nSol s i))%nat /\ (In i l -> (nSol s' i <= limit (kind i) (nSol s i))%nat) /\ (nSol s i = 0%nat -> nSol s' i = 0%nat)) /\
  (f = true <-> exists i, nSol s' i <> nSol s i).
Proof.
  intros ND V. induction V as [s|i l s s1 s2 f g V1 V2 IH].
  - split; [reflexivity|]. split; [intros i; split; [lia|split; [intros []|auto]]|]. split; [discriminate|]. intros (i & H). congruence.
  - inversion ND as [|i' l' Ni ND']; subst. destruct (IH ND') as (A & B & C). destruct (visit_counts i s s1 f V1) as (A1 & B1 & C1 & D1 & E1). split; [|split].
    + intros j Nj. rewrite A by (intros I; apply Nj; now right). apply A1. intros ->. apply Nj. now left.
    + intros j. destruct (Nat.eq_dec j i) as [->|Nj].
      * rewrite (A i Ni). split; [exact B1|]. split; [intros _; exact C1|exact D1].
      * rewrite <- (A1 j Nj). destruct (B j) as (B2 & B3 & B4). split; [exact B2|]. split; [|exact B4]. intros [E|I]; [now elim Nj|now apply B3].
    + split.
      * intros H. apply orb_prop in H. destruct H as [H|H].
        -- exists i. rewrite (A i Ni). now apply E1.
        -- apply C in H. destruct H as (j & H). exists j. destruct (Nat.eq_dec j i) as [->|Nj]; [now elim H; apply A|]. now rewrite <- (A1 j Nj).
      * intros (j & H). destruct (Nat.eq_dec j i) as [->|Nj].
        -- rewrite (A i Ni) in H. apply E1 in H. now rewrite H.
        -- rewrite <- (A1 j Nj) in H. assert (Q : g = true) by (apply C; now exists j). rewrite Q. apply orb_true_r.
Qed.
Theorem C152_counts : forall s s' found, checkSolids s s' found ->
  (forall i, (nSol s i <= nSol s' i <= S (nSol s i))%nat /\
     (kind i = Orthopyroxene -> nSol s' i = nSol s i) /\
     (kind i = Feldspar -> (nSol s' i <= max 2 (nSol s i))%nat) /\
     (kind i = Clinopyroxene -> (nSol s' i <= max 3 (nSol s i))%nat) /\
     (nSol s i = 0%nat -> nSol s' i = 0%nat)) /\
  (found = true <-> exists i, nSol s' i <> nSol s i).
Proof.
  intros s s' found C.
  assert (Id : s' = s /\ found = false -> (forall i, (nSol s i <= nSol s' i <= S (nSol s i))%nat /\ (kind i = Orthopyroxene -> nSol s' i = nSol s i) /\
     (kind i = Feldspar -> (nSol s' i <= max 2 (nSol s i))%nat) /\ (kind i = Clinopyroxene -> (nSol s' i <= max 3 (nSol s i))%nat) /\ (nSol s i = 0%nat -> nSol s' i = 0%nat)) /\ (found = true <-> exists i, nSol s' i <> nSol s i)).
  { intros (-> & ->). split; [intros i; split; [lia|split; [auto|split; [lia|split; [lia|auto]]]]|]. split; [discriminate|]. intros (i & H). congruence. }
  unfold CoexSolModel.checkSolids in C. destruct (Rle_dec t 0); [exact (Id C)|]. destruct (Rlt_dec p 0); [exact (Id C)|]. clear Id.
  destruct (visits_counts _ _ _ _ (seq_NoDup (npc tab) 0) C) as (A & B & D). split; [|exact D]. intros i. destruct (B i) as (B1 & B2 & B3).
  split; [exact B1|]. split; [|split; [|split; [|exact B3]]]; intros K; (destruct (in_dec Nat.eq_dec i (seq 0 (npc tab))) as [I|NI]; [specialize (B2 I); rewrite K in B2; unfold limit in B2; lia|rewrite (A i NI); lia]).
Qed.

(** ** C153 *)
Lemma conserved_refl s : conserved tab s s.
Proof. unfold conserved. auto. Qed.
Lemma conserved_trans s1 s2 s3 : conserved tab s1 s2 -> conserved tab s2 s3 -> conserved tab s1 s3.
Proof.
  intros (A1 & A2 & A3) (B1 & B2 & B3). split; [|split].
  - intros k Hk. rewrite B1 by auto. now apply A1.
  - intros Ag o Ho. rewrite B2 by auto. now apply A2.
  - congruence.
Qed.
Lemma visits_conserved l s s' f : (forall i, In i l -> (i < npc tab)%nat) -> (hasLiquid s = true -> (0 < nLiq s)%nat) -> visits l s s' f ->
  conserved tab s s' /\ hasLiquid s' = hasLiquid s /\ nLiq s' = nLiq s.
Proof.
  intros Hl HL V. induction V as [s|i l s s1 s2 f g V1 V2 IH]; [split; [apply conserved_refl|auto]|].
  assert (Q : conserved tab s s1 /\ hasLiquid s1 = hasLiquid s /\ nLiq s1 = nLiq s).
  { destruct (visit_cases i s s1 f V1) as [(-> & _)|(_ & N1 & _ & Pos & x & a & _ & ->)]; [split; [apply conserved_refl|auto]|].
    destruct (addSecondSolid_cells tab i (sX (solid i) x) a s Pos) as (_ & B & C & _). split; [|split; [exact B|exact C]].
    apply C41_second_solid; auto; [apply Hl; now left|apply Ph; [apply Hl; now left|exact N1]]. }
  destruct Q as (Q1 & Q2 & Q3). destruct (IH (fun j I => Hl j (or_intror I)) ltac:(rewrite Q2, Q3; exact HL)) as (R1 & R2 & R3).
  split; [exact (conserved_trans _ _ _ Q1 R1)|]. split; congruence.
Qed.
Theorem C153_conserved : forall s s' found, (hasLiquid s = true -> (0 < nLiq s)%nat) -> checkSolids s s' found ->
  conserved tab s s' /\ hasLiquid s' = hasLiquid s /\ nLiq s' = nLiq s.
Proof.
  intros s s' found HL C. unfold CoexSolModel.checkSolids in C. destruct (Rle_dec t 0); [destruct C as (-> & _); split; [apply conserved_refl|auto]|].
  destruct (Rlt_dec p 0); [destruct C as (-> & _); split; [apply conserved_refl|auto]|]. apply (visits_conserved (seq 0 (npc tab)) s s' found); auto. intros i I. apply in_seq in I. lia.
Qed.

(** ** C154 *)
(** the liquid can supply what is taken from it *)
Lemma liquidOK_spec c : liquidOK tab c = true <-> forall j, (j < nlc tab)%nat -> 0 <= c j.
Proof.
  unfold liquidOK. rewrite forallb_forall. split.
  - intros H j Hj. apply leb_true. apply H. apply in_seq. lia.
  - intros H j I. apply in_seq in I. apply leb_true. apply H. lia.
Qed.
Lemma visit_liquid i s s' : hasLiquid s = true -> visit i s s' true -> forall j, (j < nlc tab)%nat -> 0 <= liqC s' 0 j.
Proof.
  intros HL V j Hj. destruct (visit_cases i s s' true V) as [(_ & E)|(_ & N1 & _ & Pos & x & a & Am & ->)]; [discriminate E|].
  destruct (amountOf_range _ _ _ _ Am) as (_ & Ok). specialize (Ok HL). rewrite liquidOK_spec in Ok. specialize (Ok j Hj).
  destruct (addSecondSolid_cells tab i (sX (solid i) x) a s Pos) as (_ & _ & _ & _ & L). rewrite L, HL. destruct (Nat.ltb_spec j (nlc tab)); [|lia]. cbn [andb Nat.eqb].
  unfold CoexSolModel.drawn in Ok. rewrite (MassProofs.sum_ext _ (fun k => solToLiq tab (i + 1 + k) j * (sX (solid i) x k * a)) (fun k => solToLiq tab (i + 1 + k) j * sX (solid i) x k * a)) by (intros; ring). exact Ok.
Qed.
Theorem C154_liquid_supplies : forall s s', hasLiquid s = true -> (0 < nLiq s)%nat -> checkSolids s s' true ->
  forall j, (j < nlc tab)%nat -> 0 <= liqC s' 0 j.
Proof.
  intros s s' HL NL C. unfold CoexSolModel.checkSolids in C. destruct (Rle_dec t 0); [destruct C as (_ & C); discriminate C|]. destruct (Rlt_dec p 0); [destruct C as (_ & C); discriminate C|].
  assert (Q : forall l s s' f, hasLiquid s = true -> visits l s s' f -> hasLiquid s' = true /\ (f = false -> s' = s) /\ (f = true -> forall j, (j < nlc tab)%nat -> 0 <= liqC s' 0 j)).
  { clear s s' HL NL C. intros l s s' f HL V. induction V as [s|i l s s1 s2 f g V1 V2 IH]; [split; [exact HL|split; [reflexivity|discriminate]]|].
    assert (H1 : hasLiquid s1 = true).
    { destruct (visit_cases i s s1 f V1) as [(-> & _)|(_ & N1 & _ & Pos & x & a & _ & ->)]; [exact HL|]. destruct (addSecondSolid_cells tab i (sX (solid i) x) a s Pos) as (_ & B & _). now rewrite B. }
    destruct (IH H1) as (I1 & I2 & I3). split; [exact I1|]. split.
    - intros E. apply orb_false_elim in E. destruct E as (-> & ->). rewrite (I2 eq_refl). destruct (visit_cases i s s1 false V1) as [(-> & _)|(E & _)]; [reflexivity|discriminate E].
    - intros E. destruct g; [now apply I3|]. rewrite orb_false_r in E. subst f. rewrite (I2 eq_refl). now apply (visit_liquid i s s1). }
  exact (proj2 (proj2 (Q _ _ _ _ HL C)) eq_refl).
Qed.
(** the rows of different phases are different *)
Lemma rows_apart i k c : (i < npc tab)%nat -> (1 < na tab i)%nat -> (k < npc tab)%nat -> (1 < na tab k)%nat -> i <> k -> (k <= c <= k + na tab k)%nat -> ~ (i <= c <= i + na tab i)%nat.
Proof.
  intros Hi Ni Hk Nk E C C'. destruct (Lay i Hi (Ph i Hi Ni)) as (_ & Li). destruct (Li Ni) as (_ & Qi). destruct (Lay k Hk (Ph k Hk Nk)) as (_ & Lk). destruct (Lk Nk) as (_ & Qk).
  pose proof (Ph i Hi Ni) as Pi. pose proof (Ph k Hk Nk) as Pk.
  destruct (Nat.lt_trichotomy i k) as [L|[L|L]]; [|contradiction|].
  - specialize (Qi (k - i)%nat ltac:(lia)). replace (i + (k - i))%nat with k in Qi by lia. congruence.
  - specialize (Qk (i - k)%nat ltac:(lia)). replace (k + (i - k))%nat with i in Qk by lia. congruence.
Qed.
Lemma visit_other i s s' f k : (i < npc tab)%nat -> (k < npc tab)%nat -> (1 < na tab k)%nat -> i <> k -> visit i s s' f -> forall c col, (k <= c <= k + na tab k)%nat -> solC s' c col = solC s c col.
Proof.
  intros Hi Hk Nk E V c col Hc. destruct (visit_cases i s s' f V) as [(-> & _)|(_ & N1 & _ & Pos & x & a & _ & ->)]; [reflexivity|].
  pose proof (rows_apart i k c Hi N1 Hk Nk E Hc) as Ap. destruct (addSecondSolid_cells tab i (sX (solid i) x) a s Pos) as (_ & _ & _ & D & _). rewrite D.
  destruct (Nat.eqb_spec c i); [lia|]. destruct (Nat.ltb_spec i c), (Nat.leb_spec c (i + na tab i)); cbn [andb]; try reflexivity. lia.
Qed.
(** the new instance: its amount, and its end-members in the proportions x; with a liquid no other instance changes *)
Theorem C154_new_instance : forall s s' found k, checkSolids s s' found -> (k < npc tab)%nat -> nSol s' k <> nSol s k ->
  exists x a, 0 < a <= MassModel.MASSIN /\ solC s' k (nSol s k) = a /\
    (forall e, (e < na tab k)%nat -> solC s' (k + 1 + e)%nat (nSol s k) = sX (solid k) x e * a) /\
    (forall c col, (k <= c <= k + na tab k)%nat -> (col < nSol s k)%nat -> hasLiquid s = true \/ col <> (nSol s k - 1)%nat -> solC s' c col = solC s c col).
Proof.
  intros s s' found k C Hk Df. unfold CoexSolModel.checkSolids in C. destruct (Rle_dec t 0); [destruct C as (-> & _); now elim Df|]. destruct (Rlt_dec p 0); [destruct C as (-> & _); now elim Df|].
  assert (Q : forall l s s' f, NoDup l -> (forall i, In i l -> (i < npc tab)%nat) -> visits l s s' f -> nSol s' k <> nSol s k -> (1 < na tab k)%nat /\
    exists x a, 0 < a <= MassModel.MASSIN /\ solC s' k (nSol s k) = a /\ (forall e, (e < na tab k)%nat -> solC s' (k + 1 + e)%nat (nSol s k) = sX (solid k) x e * a) /\
      (forall c col, (k <= c <= k + na tab k)%nat -> (col < nSol s k)%nat -> hasLiquid s = true \/ col <> (nSol s k - 1)%nat -> solC s' c col = solC s c col)).
  { clear s s' found C Df. intros l s s' f ND Hl V. induction V as [s|i l s s1 s2 f g V1 V2 IH]; intros Df; [now elim Df|].
    inversion ND as [|i' l' Ni ND']; subst. pose proof (visit_counts i s s1 f V1) as (A1 & _). destruct (Nat.eq_dec i k) as [->|Ek].
    - destruct (visits_counts l s1 s2 g ND' V2) as (A2 & _). rewrite (A2 k Ni) in Df.
      destruct (visit_cases k s s1 f V1) as [(-> & _)|(_ & N1 & _ & Pos & x & a & Am & E)]; [now elim Df|]. split; [exact N1|].
      assert (Fr : forall c col, (k <= c <= k + na tab k)%nat -> solC s2 c col = solC s1 c col).
      { clear - V2 Ni Hl Hk N1 Lay Ph. assert (Hl' : forall i, In i l -> (i < npc tab)%nat) by (intros i I; apply Hl; now right). clear Hl. intros c col Hc. induction V2 as [s|i l s s1 s2 f g V1 V2 IH]; [reflexivity|].
        rewrite IH by (try (intros I; apply Ni; now right); intros j I; apply Hl'; now right). apply (visit_other i s s1 f k); auto; [apply Hl'; now left|]. intros ->. apply Ni. now left. }
      destruct (addSecondSolid_cells tab k (sX (solid k) x) a s Pos) as (_ & _ & _ & D & _). rewrite <- E in D. exists x, a. split; [exact (proj1 (amountOf_range _ _ _ _ Am))|]. split; [|split].
      + rewrite Fr by lia. rewrite D, Nat.eqb_refl. unfold cell. now rewrite Nat.eqb_refl.
      + intros e He. rewrite Fr by lia. rewrite D. destruct (Nat.eqb_spec (k + 1 + e) k); [lia|]. destruct (Nat.ltb_spec k (k + 1 + e)), (Nat.leb_spec (k + 1 + e) (k + na tab k)); try lia. cbn [andb].
        unfold cell. rewrite Nat.eqb_refl. do 2 f_equal. lia.
      + intros c col Hc Hcol Hor. rewrite Fr by exact Hc. rewrite D. assert (Cl : forall w, cell k s w c col = solC s c col).
        { intros w. unfold cell. destruct (Nat.eqb_spec col (nSol s k)); [lia|]. destruct Hor as [HL|Nc]; [rewrite HL; reflexivity|]. destruct (Nat.eqb_spec col (nSol s k - 1)); [contradiction|]. now rewrite andb_false_r. }
        rewrite !Cl. destruct (Nat.eqb c k); [reflexivity|]. destruct (_ && _); reflexivity.
    - assert (K : nSol s1 k = nSol s k) by (apply A1; congruence). rewrite <- K in Df |- *. destruct (IH ND' (fun j I => Hl j (or_intror I)) Df) as (N1 & x & a & I1 & I2 & I3 & I4). split; [exact N1|]. exists x, a. split; [exact I1|]. split; [exact I2|]. split; [exact I3|].
      assert (HL1 : hasLiquid s1 = hasLiquid s).
      { destruct (visit_cases i s s1 f V1) as [(-> & _)|(_ & _ & _ & Pos & x' & a' & _ & ->)]; [reflexivity|]. destruct (addSecondSolid_cells tab i (sX (solid i) x') a' s Pos) as (_ & B & _). exact B. }
      intros c col Hc Hcol Hor. rewrite I4; [|exact Hc|exact Hcol|rewrite HL1; exact Hor]. apply (visit_other i s s1 f k); auto. apply Hl. now left. }
  exact (proj2 (Q _ _ _ _ (seq_NoDup (npc tab) 0) ltac:(intros i I; apply in_seq in I; lia) C Df)).
Qed.
End Call.
