(** C182-C184: the liquid queries on the tables as computed; end members and oxides. *)
From Coq Require Import Reals QArith Qcanon Qreals String Bool Arith ZArith Lia Lra Classical.
From Verif Require Import MassModel MassSpec MassProofs InitModel InitProofs InitProps InitCert Tables RedoxModel RedoxProps ReportModel QryModel QrySpec QryProps QryTable ElmTable.
From Verif Require SolnModel SolnData SolnProofs SolnProps LiqModel LiqProofs LiqProps.
From Coq Require Import List. Import ListNotations.
Local Open Scope R_scope.

(** ** Grams of oxides of a liquid of given moles of components *)
Definition liqGrams (t : Tab) (x : nat -> R) (k : nat) : R := omw t k * sum (nlc t) (fun j => x j * liqToOx t j k).
Lemma liq_independent m t d : In m modes -> initialised m t ->
  (forall k, (k < NE)%nat -> sum (nlc t) (fun j => d j * atoms (liquidFormula m j) k) = 0) -> forall j, (j < nlc t)%nat -> d j = 0.
Proof.
  intros Hm It H j Hj. destruct (checked m Hm) as [ce Ch]. destruct (ch_split m t It ce Ch) as ((En & El) & (RO & RL) & _).
  pose proof (in_nlc m t It) as L. rewrite El in *.
  apply (independent nOx (liqE m) _ (rightInverse_ok nOx (Lm m) (certM nOx ce) RL) d); [|exact Hj].
  intros k Hk. rewrite <- (H k Hk). apply sum_ext. intros i Hi. rewrite liqE_atoms by lia. reflexivity.
Qed.
Theorem C184_liquid_recovered : forall m t x j, In m modes -> initialised m t -> (j < nlc t)%nat -> liqMoles t (liqGrams t x) j = x j.
Proof.
  intros m t x j Hm It Hj. destruct (C46_elements m t Hm It) as (_ & _ & A & B).
  enough (liqMoles t (liqGrams t x) j - x j = 0) by lra.
  apply (liq_independent m t (fun j => liqMoles t (liqGrams t x) j - x j) Hm It); [|exact Hj]. intros k Hk.
  rewrite (sum_ext (nlc t) _ (fun j => liqMoles t (liqGrams t x) j * atoms (liquidFormula m j) k + - (x j * atoms (liquidFormula m j) k))) by (intros; ring).
  rewrite sum_plus, sum_opp.
  enough (sum (nlc t) (fun j => liqMoles t (liqGrams t x) j * atoms (liquidFormula m j) k) = sum (nlc t) (fun j => x j * atoms (liquidFormula m j) k)) by lra.
  transitivity (sum (nc t) (fun o => sum (nlc t) (fun j => x j * liqToOx t j o) * atoms (oxideFormula o) k)).
  - rewrite (sum_ext (nc t) _ (fun o => sum (nlc t) (fun j => sum (nlc t) (fun i => x i * liqToOx t i o) * (oxToLiq t o j * atoms (liquidFormula m j) k)))).
    2:{ intros o Ho. rewrite (B o Ho k Hk). now rewrite sum_scal. }
    rewrite sum_swap. apply sum_ext. intros i Hi. unfold liqMoles. rewrite <- sum_scal_r. apply sum_ext. intros o Ho.
    unfold liqGrams. pose proof (omw_pos m t o It Ho). field. lra.
  - rewrite (sum_ext (nc t) _ (fun o => sum (nlc t) (fun j => x j * (liqToOx t j o * atoms (oxideFormula o) k)))).
    2:{ intros o Ho. rewrite <- sum_scal_r. apply sum_ext. intros; ring. }
    rewrite sum_swap. apply sum_ext. intros i Hi. rewrite (A i Hi k Hk). now rewrite sum_scal.
Qed.

(** ** C182: iron on an oxygen fugacity path *)
(** atoms of element z in m moles of liquid components *)
Definition atomsOf (md : Mode) (t : Tab) (m : nat -> R) (z : nat) : R := sum (nlc t) (fun j => m j * atoms (liquidFormula md j) z).
Definition FeAt : nat := 26. Definition SiAt : nat := 14.
Lemma iron_rows : forall md, In md modes -> length (mLiq md) = 19%nat /\ forall j, (j < 19)%nat ->
  atoms (liquidFormula md j) FeAt = (if Nat.eqb j 3 then 2 else if Nat.eqb j 5 then 2 else 0)
  /\ (j = 3%nat -> atoms (liquidFormula md j) SiAt = 0) /\ (j = 5%nat -> atoms (liquidFormula md j) SiAt = 1).
Proof.
  assert (K : forallb (fun md => Nat.eqb (length (mLiq md)) 19 && forallb (fun j =>
     Qeq_bool (this (getV (elemRow (liquidFormula md j)) FeAt)) (if Nat.eqb j 3 then 2 else if Nat.eqb j 5 then 2 else 0)
     && (negb (Nat.eqb j 3) || Qeq_bool (this (getV (elemRow (liquidFormula md j)) SiAt)) 0)
     && (negb (Nat.eqb j 5) || Qeq_bool (this (getV (elemRow (liquidFormula md j)) SiAt)) 1)) (seq 0 19)) modes = true) by (vm_compute; reflexivity).
  intros md Hm. rewrite forallb_forall in K. specialize (K md Hm). apply andb_prop in K. destruct K as [K1 K]. apply Nat.eqb_eq in K1. split; [exact K1|].
  intros j Hj. rewrite forallb_forall in K. specialize (K j ltac:(apply in_seq; lia)). apply andb_prop in K. destruct K as [K K3]. apply andb_prop in K. destruct K as [K K2].
  assert (V : forall z q, Qeq_bool (this (getV (elemRow (liquidFormula md j)) z)) q = true -> atoms (liquidFormula md j) z = Q2R q).
  { intros z q E. apply Qeq_bool_eq in E. unfold atoms, QR. now apply Qeq_eqR. }
  split; [|split].
  - rewrite (V _ _ K). destruct (Nat.eqb j 3), (Nat.eqb j 5); unfold Q2R; cbn; lra.
  - intros ->. cbn [Nat.eqb negb orb] in K2. rewrite (V _ _ K2). unfold Q2R; cbn; lra.
  - intros ->. cbn [Nat.eqb negb orb] in K3. rewrite (V _ _ K3). unfold Q2R; cbn; lra.
Qed.
Section Path.
Variables (md : Mode) (t : Tab).
Hypotheses (Hm : In md modes) (It : initialised md t).
Variables (coeff : nat -> R) (capped : bool).
(** the fO2 of the path *)
Variable path : R -> R -> R.
Notation redox T P := (toRedox t coeff 5 3 capped T P (path T P)).
Lemma nlc19 : nlc t = 19%nat.
Proof. rewrite (in_nlc md t It). exact (proj1 (iron_rows md Hm)). Qed.
Lemma nc19 : nc t = 19%nat.
Proof. rewrite (in_nc md t It). vm_compute. reflexivity. Qed.
(** The numbers reported are those of m' moles of components, and m' has not the iron of the grams given: it is off by twice the
    change in moles of Fe2O3, and the silicon too *)
Theorem C182_iron oxToElm liq failure T P grams a mem :
  let m := liqMoles t grams in let m' := redox T P m in
  (forall q, (q < 11)%nat -> cell (snd (getPhaseProperties t oxToElm liq (Some (fun T P => redox T P)) failure (Some Liquid) T P grams (Some a) mem)) a q = scale q (total liq T P m' q))
  /\ atomsOf md t m' FeAt - atomsOf md t m FeAt = 2 * (m 3%nat - m' 3%nat)
  /\ atomsOf md t m' SiAt - atomsOf md t m SiAt = 2 * (m 3%nat - m' 3%nat).
Proof.
  intros m m'. destruct (iron_rows md Hm) as [_ Rows].
  assert (Diff : forall z, atomsOf md t m' z - atomsOf md t m z = (m' 3%nat - m 3%nat) * atoms (liquidFormula md 3) z + (m' 5%nat - m 5%nat) * atoms (liquidFormula md 5) z).
  { intros z. unfold atomsOf. rewrite nlc19. replace (sum 19 (fun j => m' j * atoms (liquidFormula md j) z) - sum 19 (fun j => m j * atoms (liquidFormula md j) z))
      with (sum 19 (fun j => (m' j - m j) * atoms (liquidFormula md j) z)) by (unfold Rminus; rewrite <- sum_opp, <- sum_plus; apply sum_ext; intros; ring).
    assert (O : forall j, j <> 5%nat -> j <> 3%nat -> m' j = m j) by (intros; apply C75_other_oxides; [discriminate|assumption|assumption]).
    cbn [sum]. rewrite !(O 0%nat), !(O 1%nat), !(O 2%nat), !(O 4%nat), !(O 6%nat), !(O 7%nat), !(O 8%nat), !(O 9%nat), !(O 10%nat), !(O 11%nat), !(O 12%nat), !(O 13%nat), !(O 14%nat), !(O 15%nat), !(O 16%nat), !(O 17%nat), !(O 18%nat) by discriminate. ring. }
  assert (Iron : m' 5%nat + 2 * m' 3%nat = m 5%nat + 2 * m 3%nat) by (apply (C75_iron t coeff 5 3 capped ltac:(discriminate))).
  split; [|split].
  - intros q Hq. unfold cell, getPhaseProperties. cbn [snd at_ phaseProperties_]. rewrite store_same. rewrite written_prop by assumption. reflexivity.
  - rewrite Diff. destruct (Rows 3%nat ltac:(lia)) as [E3 _]. destruct (Rows 5%nat ltac:(lia)) as [E5 _]. rewrite E3, E5. cbn. lra.
  - rewrite Diff. destruct (Rows 3%nat ltac:(lia)) as [_ [E3 _]]. destruct (Rows 5%nat ltac:(lia)) as [_ [_ E5]]. rewrite E3, E5 by reflexivity. lra.
Qed.
End Path.

(** Fe2SiO4 is two FeO and one SiO2 *)
Definition fayalite (k : nat) : R := if Nat.eqb k 5 then 2 else if Nat.eqb k 0 then 1 else 0.
Lemma fayalite_oxides md t k : In md modes -> initialised md t -> (k < nc t)%nat -> liqToOx t 5 k = fayalite k.
Proof.
  intros Hm It Hk. enough (liqToOx t 5 k - fayalite k = 0) by lra. destruct (checked md Hm) as [ce Ch].
  apply (ox_independent md t It ce Ch (fun k => liqToOx t 5 k - fayalite k)); [|exact Hk]. intros z Hz.
  destruct (C46_elements md t Hm It) as (_ & _ & A & _).
  assert (L5 : (5 < nlc t)%nat) by (rewrite (nlc19 md t Hm It); lia). specialize (A 5%nat L5 z Hz).
  rewrite (sum_ext (nc t) _ (fun o => liqToOx t 5 o * atoms (oxideFormula o) z + - (fayalite o * atoms (oxideFormula o) z))).
  2:{ intros o Ho. rewrite oxE_atoms by (rewrite <- (in_nc md t It); exact Ho). ring. }
  rewrite sum_plus, sum_opp, <- A. rewrite (nc19 md t It). unfold fayalite. cbn [sum Nat.eqb].
  assert (K : forallb (fun md => forallb (fun z => Qeq_bool (this (getV (elemRow (liquidFormula md 5)) z)) (2 * this (getV (elemRow (oxideFormula 5)) z) + this (getV (elemRow (oxideFormula 0)) z))) (seq 0 NE)) modes = true) by (vm_compute; reflexivity).
  rewrite forallb_forall in K. specialize (K md Hm). rewrite forallb_forall in K. specialize (K z ltac:(apply in_seq; lia)).
  apply Qeq_bool_eq, Qeq_eqR in K. rewrite Q2R_plus, Q2R_mult in K. unfold atoms, QR. rewrite K. replace (Q2R 2) with 2 by (unfold Q2R; cbn; lra). ring.
Qed.

Definition silica (k : nat) : R := if Nat.eqb k 0 then 1 else 0.
Lemma silica_oxides md t k : In md modes -> liquidFormula md 0 = "SiO2"%string -> initialised md t -> (k < nc t)%nat -> liqToOx t 0 k = silica k.
Proof.
  intros Hm Hq It Hk. enough (liqToOx t 0 k - silica k = 0) by lra. destruct (checked md Hm) as [ce Ch].
  apply (ox_independent md t It ce Ch (fun k => liqToOx t 0 k - silica k)); [|exact Hk]. intros z Hz.
  destruct (C46_elements md t Hm It) as (_ & _ & A & _).
  assert (L5 : (0 < nlc t)%nat) by (rewrite (nlc19 md t Hm It); lia). specialize (A 0%nat L5 z Hz).
  rewrite (sum_ext (nc t) _ (fun o => liqToOx t 0 o * atoms (oxideFormula o) z + - (silica o * atoms (oxideFormula o) z))).
  2:{ intros o Ho. rewrite oxE_atoms by (rewrite <- (in_nc md t It); exact Ho). ring. }
  rewrite sum_plus, sum_opp, <- A. rewrite (nc19 md t It). unfold silica. cbn [sum Nat.eqb].
  rewrite Hq. change (oxideFormula 0) with "SiO2"%string. ring.
Qed.

(** So the property is false: the same grams on two paths cannot both keep their iron *)
Theorem C182_refuted : forall md coeff capped T P lf lf', In md modes -> lf < lf' ->
  exists t grams, initialised md t /\ (forall k, (k < nc t)%nat -> 0 <= grams k) /\
    let m := liqMoles t grams in
    ~ (atomsOf md t (toRedox t coeff 5 3 capped T P lf m) FeAt = atomsOf md t m FeAt /\ atomsOf md t (toRedox t coeff 5 3 capped T P lf' m) FeAt = atomsOf md t m FeAt).
Proof.
  intros md coeff capped T P lf lf' Hm L. destruct (C46_tables_exist md Hm) as [t It].
  set (x := fun j => if Nat.eqb j 5 then 1 else 0).
  assert (X : forall j, (j < 19)%nat -> liqMoles t (liqGrams t x) j = x j) by (intros j Hj; apply (C184_liquid_recovered md); auto; now rewrite (nlc19 md t Hm It)).
  exists t, (liqGrams t x). split; [exact It|]. split.
  - intros k Hk. unfold liqGrams. apply Rmult_le_pos; [left; exact (omw_pos md t k It Hk)|].
    rewrite (nlc19 md t Hm It). unfold x. cbn [sum Nat.eqb]. rewrite (fayalite_oxides md t k Hm It Hk). unfold fayalite. destruct (Nat.eqb k 5), (Nat.eqb k 0); lra.
  - intros m [A B].
    pose proof (C182_iron md t Hm It coeff capped (fun _ _ => lf) (fun _ _ => 0) (liquid 18 (fun _ _ => 0) (fun _ _ => 0) (fun _ _ => 0) (fun _ _ _ _ => 0)) false T P (liqGrams t x) 0 (fun _ _ => 0)) as (_ & E & _).
    pose proof (C182_iron md t Hm It coeff capped (fun _ _ => lf') (fun _ _ => 0) (liquid 18 (fun _ _ => 0) (fun _ _ => 0) (fun _ _ => 0) (fun _ _ _ _ => 0)) false T P (liqGrams t x) 0 (fun _ _ => 0)) as (_ & E' & _).
    fold m in E, E'.
    assert (I : 0 < iron 5 3 m) by (unfold iron, m; rewrite !X by lia; unfold x; cbn; lra).
    assert (N : allFeO t 5 3 m <> 0).
    { unfold allFeO. rewrite (nc19 md t It). assert (Z : forall j, (j < 19)%nat -> reduced 5 3 m j = x j).
      { intros j Hj. unfold reduced, iron, m. rewrite !X by lia. unfold x. destruct (Nat.eqb_spec j 3) as [->|]; [reflexivity|]. destruct (Nat.eqb_spec j 5); cbn; lra. }
      rewrite (sum_ext 19 _ x Z). unfold x. cbn. lra. }
    destruct (C76_monotone t coeff 5 3 capped ltac:(discriminate) T P lf lf' m I N L) as [M _]. lra.
Qed.

(** ** C183: end members *)
Section Members.
Variables (tab : Tab) (oxToElm : nat -> nat -> R).
Notation memberQuery liq := (getEndMemberProperties tab oxToElm liq None).
Lemma row_at (x a m0 mu : nat -> R) i c : (c < 4)%nat -> row x a m0 mu (4 * i + c) = match c with 0%nat => x i | 1%nat => a i | 2%nat => m0 i | _ => mu i end.
Proof.
  intros L. unfold row. replace ((4 * i + c) / 4)%nat with i; [replace ((4 * i + c) mod 4) with c; [reflexivity|]|].
  - rewrite Nat.add_comm, Nat.mul_comm, Nat.mod_add by discriminate. symmetry. now apply Nat.mod_small.
  - rewrite Nat.add_comm, Nat.mul_comm, Nat.div_add by discriminate. rewrite (Nat.div_small c 4) by assumption. reflexivity.
Qed.
Lemma fill_at n v old i c : (i < n)%nat -> (c < 4)%nat -> fill n v old (4 * i + c)%nat = v (4 * i + c)%nat.
Proof. intros L M. unfold fill. now rewrite (proj2 (Nat.ltb_lt (4 * i + c) (4 * n))) by lia. Qed.
(** what is reported about end member i: fraction, activity, standard potential, potential *)
Definition field (r : bool * (nat * Mem)) (a i c : nat) : R := cell (snd (snd r)) a (4 * i + c)%nat.
Definition soln (liq : Soln) (e : Entry) : option Soln := match e with Liquid => Some liq | Pure _ _ => None | Solution s => Some s end.
Lemma fraction_field liq e s failure t p grams a number mem i : soln liq e = Some s -> (i < sNa s)%nat ->
  let m := amountsOf tab oxToElm e t p grams in
  field (memberQuery liq failure (Some e) t p grams (Some a) number mem) a i 0 = unlessZero (sum (sNa s) m) (m i / sum (sNa s) m)
  /\ field (memberQuery liq failure (Some e) t p grams (Some a) number mem) a i 2 = unlessZero (m i) (sCur s i 0%nat t p)
  /\ field (memberQuery liq failure (Some e) t p grams (Some a) number mem) a i 3 = unlessZero (m i) (potential s t p m i)
  /\ field (memberQuery liq failure (Some e) t p grams (Some a) number mem) a i 1 =
       match e with Liquid => unlessZero (m i) (sAct s t p (sR s m) i) | _ => 0 end.
Proof.
  intros S L. unfold field, getEndMemberProperties, cell. cbn [snd at_].
  assert (Z : forall x, unlessZero x 0 = 0) by (intros x; unfold unlessZero; destruct (Req_EM_T x 0); reflexivity).
  destruct e as [|mw cur|s']; cbn [soln] in S; try discriminate; injection S as <-; cbn [endMemberProperties_ amountsOf snd fst]; rewrite store_same, !fill_at by (try assumption; lia); unfold endRows; rewrite !row_at by lia; cbn [moles onPath];
    repeat split; try reflexivity. apply Z.
Qed.
(** fractions add up to one *)
Theorem C183_fractions liq e s failure t p grams a number mem : soln liq e = Some s ->
  sum (sNa s) (amountsOf tab oxToElm e t p grams) <> 0 ->
  fst (snd (memberQuery liq failure (Some e) t p grams (Some a) number mem)) = sNa s
  /\ sum (sNa s) (fun i => field (memberQuery liq failure (Some e) t p grams (Some a) number mem) a i 0) = 1.
Proof.
  intros S N. split; [destruct e; cbn in S; try discriminate; injection S as <-; reflexivity|].
  rewrite (sum_ext _ _ (fun i => amountsOf tab oxToElm e t p grams i * / sum (sNa s) (amountsOf tab oxToElm e t p grams))).
  - rewrite sum_scal_r. field. exact N.
  - intros i L. destruct (fraction_field liq e s failure t p grams a number mem i S L) as [E _]. rewrite E. unfold unlessZero. destruct (Req_EM_T _ 0); [congruence|]. reflexivity.
Qed.
Theorem C183_pure liq mw cur failure t p grams a number mem :
  let r := memberQuery liq failure (Some (Pure mw cur)) t p grams (Some a) number mem in
  fst (snd r) = 1%nat /\ field r a 0 0 = 1 /\ field r a 0 3 = field r a 0 2 + Rgas * t * ln (field r a 0 1).
Proof.
  cbv zeta. unfold field, getEndMemberProperties, cell. cbn [snd fst at_ endMemberProperties_]. rewrite store_same, !fill_at, !row_at by lia.
  split; [reflexivity|]. split; [reflexivity|]. rewrite ln_1. ring.
Qed.
(** liquid: potential, standard potential and activity belong together *)
Theorem C183_liquid n WH WS WV cur failure t p grams a number mem i : (1 <= n)%nat -> 0 < t ->
  LiqProofs.symmetric n WH -> LiqProofs.symmetric n WS -> LiqProofs.symmetric n WV ->
  let m := liqMoles tab grams in (forall j, (j < S n)%nat -> 0 <= m j) -> 0 < m 0%nat -> (i < S n)%nat -> 0 < m i ->
  let r := memberQuery (liquid n WH WS WV cur) failure (Some Liquid) t p grams (Some a) number mem in
  0 < field r a i 1 /\ field r a i 3 = field r a i 2 + Rgas * t * ln (field r a i 1).
Proof.
  intros N1 T SH SS SV m Pm M0 L Mi r.
  destruct (fraction_field (liquid n WH WS WV cur) Liquid _ failure t p grams a number mem i eq_refl L) as (_ & E2 & E3 & E1).
  fold r in E1, E2, E3. cbn [amountsOf sNa liquid sCur sAct sR] in E1, E2, E3. fold m in E1, E2, E3.
  assert (NZ : forall y, unlessZero (m i) y = y) by (intros y; unfold unlessZero; destruct (Req_EM_T (m i) 0); [lra|reflexivity]).
  rewrite NZ in E1, E2, E3. rewrite E1, E2, E3. unfold potential. cbn [sMu sR sCur liquid].
  destruct (LiqProps.C85_proper n N1 m Pm M0) as [Pr _].
  assert (Tm : LiqModel.total n m <> 0).
  { change (LiqModel.total n m) with (sum (S n) m). assert (Q : forall k, (k <= S n)%nat -> 0 <= sum k m /\ ((0 < k)%nat -> 0 < sum k m)).
    { induction k as [|k IH]; intros Hk; cbn [sum]; [split; [lra|lia]|]. destruct (IH ltac:(lia)) as [I1 I2]. specialize (Pm k ltac:(lia)). split; [lra|].
      intros _. destruct k; [cbn; lra|]. specialize (I2 ltac:(lia)). lra. }
    specialize (proj2 (Q (S n) ltac:(lia)) ltac:(lia)). lra. }
  assert (Xi : 0 < LiqModel.xr n (LiqModel.rOf n m) i).
  { destruct (LiqProps.C85_fractions n m i Tm L) as [A B]. rewrite A, B.
    assert (0 < LiqModel.total n m). { change (LiqModel.total n m) with (sum (S n) m) in *. clear - Pm Tm. 
      enough (0 <= sum (S n) m) by lra. clear Tm. induction (S n) as [|k IH]; cbn; [lra|]. specialize (IH ltac:(intros; apply Pm; lia)). specialize (Pm k ltac:(lia)). lra. }
    apply Rmult_lt_0_compat; [exact Mi|]. now apply Rinv_0_lt_compat. }
  destruct (LiqProps.C84_activity n WH WS WV SH SS SV N1 t p (LiqModel.rOf n m) i Pr L Xi T) as [A B].
  split; [exact A|]. rewrite B. unfold Rgas, LiqModel.Rg. lra.
Qed.
(** solids: the activity reported is zero, whatever the composition, and so not the one of the potential reported *)
Theorem C183_refuted ph f cur liq failure t p grams a number mem i : In ph SolnData.phases ->
  let m := f (elements tab oxToElm grams) in
  SolnProofs.feasible ph t p (fun j => SolnModel.con_r (SolnModel.ph_con ph) j m) -> (i < SolnModel.ph_na ph)%nat -> m i <> 0 ->
  let r := memberQuery liq failure (Some (Solution (solution ph f cur))) t p grams (Some a) number mem in
  field r a i 1 = 0 /\ 0 < exp ((field r a i 3 - field r a i 2) / (Rgas * t))
  /\ exp ((field r a i 3 - field r a i 2) / (Rgas * t)) = SolnModel.act_a ph i t p (fun j => SolnModel.con_r (SolnModel.ph_con ph) j m).
Proof.
  intros I m F L Mi r.
  destruct (fraction_field liq (Solution (solution ph f cur)) _ failure t p grams a number mem i eq_refl L) as (_ & E2 & E3 & E1).
  fold r in E1, E2, E3. split; [exact E1|]. split; [apply exp_pos|].
  cbn [amountsOf sNa solution sCur sElem] in E2, E3. fold m in E2, E3.
  assert (NZ : forall y, unlessZero (m i) y = y) by (intros y; unfold unlessZero; destruct (Req_EM_T (m i) 0); [contradiction|reflexivity]).
  rewrite NZ in E2, E3. rewrite E2, E3. unfold potential. cbn [sMu sR sCur solution].
  assert (N0 : (0 < SolnModel.ph_nr ph)%nat).
  { assert (K : forallb (fun ph => Nat.ltb 0 (SolnModel.ph_nr ph)) SolnData.phases = true) by (vm_compute; reflexivity). rewrite forallb_forall in K. specialize (K ph I). now apply Nat.ltb_lt in K. }
  destruct (SolnProps.C14_activities ph I t p _ F i 0%nat L N0) as [E _]. rewrite E. f_equal. unfold Rgas.
  replace (Q2R (83143 # 10000)) with (83143 / 10000) by (unfold Q2R; cbn; lra). f_equal. ring.
Qed.
End Members.

(** ** C184: oxides *)
Section Oxides.
Variables (md : Mode) (t : Tab).
Hypotheses (Hm : In md modes) (It : initialised md t).
Variables (oxToElm : nat -> nat -> R) (same : nat -> option nat).
Notation oxideQuery liq := (getOxideProperties t oxToElm liq None same).
Lemma oxMoles_eq m k : oxMoles t m k = sum (nlc t) (fun i => m i * liqToOx t i k).
Proof. unfold oxMoles. apply sum_ext. intros i _. destruct (Req_EM_T (m i) 0) as [E|E]; [rewrite E|]; ring. Qed.
Lemma oxide_fields liq failure T P grams a number mem k : (k < nc t)%nat ->
  let m := liqMoles t grams in let r := oxideQuery liq failure (Some Liquid) T P grams (Some a) number mem in let n := oxMoles t m in
  field r a k 0 = unlessZero (n k) (if Req_EM_T (sum (nc t) n) 0 then n k else n k / sum (nc t) n)
  /\ field r a k 1 = unlessZero (n k) (match same k with Some i => exp ((oxMu t liq T P m k - sCur liq i 0%nat T P) / (T * Rgas)) | None => 0 end)
  /\ field r a k 2 = unlessZero (n k) (match same k with Some i => sCur liq i 0%nat T P | None => 0 end)
  /\ field r a k 3 = unlessZero (n k) (oxMu t liq T P m k * (sum (nc t) n / sum (nlc t) m)).
Proof.
  intros L m r n. unfold r, field, getOxideProperties, cell. cbn [snd at_ oxideProperties_]. rewrite store_same, !fill_at by (try assumption; lia).
  unfold oxRows. cbv zeta. rewrite !row_at by lia. cbn [moles onPath]. repeat split; reflexivity.
Qed.
(** Liquid components -> oxides -> liquid components is the identity *)
Lemma back_to_liquid m j : (j < nlc t)%nat -> sum (nc t) (fun k => oxMoles t m k * oxToLiq t k j) = m j.
Proof.
  intros Hj. rewrite <- (C184_liquid_recovered md t m j Hm It Hj). unfold liqMoles, liqGrams. apply sum_ext. intros k Hk.
  rewrite oxMoles_eq. pose proof (omw_pos md t k It Hk). field. lra.
Qed.
(** The fractions add up to one, and fractions times potentials to the Gibbs energy per mole of liquid components *)
Theorem C184_sums liq failure failure' T P grams a number mem mem' : sNa liq = nlc t ->
  let m := liqMoles t grams in let r := oxideQuery liq failure (Some Liquid) T P grams (Some a) number mem in
  sum (nc t) (oxMoles t m) <> 0 -> sum (nlc t) m <> 0 -> eulerAt liq T P m ->
  fst (snd r) = nc t /\ sum (nc t) (fun k => field r a k 0) = 1
  /\ sum (nc t) (fun k => field r a k 0 * field r a k 3)
     = cell (snd (getMolarProperties liq None failure' (Some Liquid) T P m (Some a) mem')) a 0.
Proof.
  intros Ln m r N1 N2 Eu. split; [reflexivity|].
  assert (F0 : forall k, (k < nc t)%nat -> field r a k 0 = oxMoles t m k * / sum (nc t) (oxMoles t m)).
  { intros k Hk. destruct (oxide_fields liq failure T P grams a number mem k Hk) as (E & _). fold m r in E. rewrite E. unfold unlessZero.
    destruct (Req_EM_T (oxMoles t m k) 0) as [Z|Z]; [rewrite Z; ring|]. destruct (Req_EM_T _ 0); [contradiction|reflexivity]. }
  split.
  - rewrite (sum_ext _ _ _ F0), sum_scal_r. now apply Rinv_r.
  - assert (F3 : forall k, (k < nc t)%nat -> field r a k 0 * field r a k 3 = oxMoles t m k * oxMu t liq T P m k * / sum (nlc t) m).
    { intros k Hk. rewrite (F0 k Hk). destruct (oxide_fields liq failure T P grams a number mem k Hk) as (_ & _ & _ & E). fold m r in E. rewrite E. unfold unlessZero.
      destruct (Req_EM_T (oxMoles t m k) 0) as [Z|Z]; [rewrite Z; ring|]. field. split; assumption. }
    rewrite (sum_ext _ _ _ F3), sum_scal_r. rewrite cell_molar, written_prop by lia. change (scale 0 ?x) with x.
    assert (G : molar liq T P m 0%nat = total liq T P m 0%nat * / sum (nlc t) m).
    { rewrite <- (molar_total liq T P m 0%nat) by (rewrite Ln; exact N2). rewrite Ln. field. exact N2. }
    rewrite G, total_euler by exact Eu. rewrite Ln. f_equal. unfold oxMu.
    rewrite (sum_ext (nc t) _ (fun k => sum (nlc t) (fun i => oxMoles t m k * oxToLiq t k i * (if Req_EM_T (m i) 0 then 0 else potential liq T P m i)))).
    2:{ intros k Hk. rewrite <- sum_scal. apply sum_ext. intros i Hi. destruct (Req_EM_T (m i) 0); ring. }
    rewrite sum_swap. apply sum_ext. intros i Hi. rewrite sum_scal_r, (back_to_liquid m i Hi). destruct (Req_EM_T (m i) 0) as [E|E]; [rewrite E|]; ring.
Qed.
(** The three numbers of an oxide: off by the moles of oxides per mole of liquid components *)
Theorem C184_oxide liq failure T P grams a number mem k i : 0 < T -> (k < nc t)%nat -> same k = Some i ->
  let m := liqMoles t grams in let r := oxideQuery liq failure (Some Liquid) T P grams (Some a) number mem in
  oxMoles t m k <> 0 ->
  field r a k 3 = (field r a k 2 + Rgas * T * ln (field r a k 1)) * (sum (nc t) (oxMoles t m) / sum (nlc t) m).
Proof.
  intros HT Hk Sk m r N. destruct (oxide_fields liq failure T P grams a number mem k Hk) as (_ & E1 & E2 & E3). fold m r in E1, E2, E3.
  rewrite E1, E2, E3, Sk. unfold unlessZero. destruct (Req_EM_T _ 0); [contradiction|]. rewrite ln_exp. f_equal.
  unfold Rgas. field. lra.
Qed.
End Oxides.
(** false: SiO2 in a liquid of one mole SiO2 and one mole Fe2SiO4 has twice its potential *)
Theorem C184_refuted : forall md oxToElm same liq failure T P a number mem, In md modes -> liquidFormula md 0 = "SiO2"%string -> 0 < T -> sNa liq = 19%nat -> same 0%nat = Some 0%nat ->
  exists t grams, initialised md t /\ (forall k, (k < nc t)%nat -> 0 <= grams k) /\
  let r := getOxideProperties t oxToElm liq None same failure (Some Liquid) T P grams (Some a) number mem in
  field r a 0 3 = 2 * (field r a 0 2 + Rgas * T * ln (field r a 0 1)).
Proof.
  intros md oxToElm same liq failure T P a number mem Hm Hq HT Ln S0. destruct (C46_tables_exist md Hm) as [t It].
  set (x := fun j => if Nat.eqb j 5 then 1 else if Nat.eqb j 0 then 1 else 0).
  assert (N19 : nlc t = 19%nat) by exact (nlc19 md t Hm It). assert (C19 : nc t = 19%nat) by exact (nc19 md t It).
  assert (X : forall j, (j < 19)%nat -> liqMoles t (liqGrams t x) j = x j) by (intros j Hj; apply (C184_liquid_recovered md); auto; now rewrite N19).
  exists t, (liqGrams t x). split; [exact It|].
  assert (Q : forall k, (k < nc t)%nat -> sum (nlc t) (fun j => x j * liqToOx t j k) = fayalite k + silica k).
  { intros k Hk. rewrite N19. unfold x. cbn [sum Nat.eqb]. rewrite (fayalite_oxides md t k Hm It Hk), (silica_oxides md t k Hm Hq It Hk). ring. }
  split.
  - intros k Hk. unfold liqGrams. apply Rmult_le_pos; [left; exact (omw_pos md t k It Hk)|]. rewrite Q by exact Hk. unfold fayalite, silica. destruct (Nat.eqb k 5), (Nat.eqb k 0); lra.
  - assert (O : forall k, (k < nc t)%nat -> oxMoles t (liqMoles t (liqGrams t x)) k = fayalite k + silica k).
    { intros k Hk. rewrite oxMoles_eq, <- Q by exact Hk. apply sum_ext. intros j Hj. rewrite X by (rewrite <- N19; exact Hj). reflexivity. }
    cbv zeta. rewrite (C184_oxide t oxToElm same liq failure T P (liqGrams t x) a number mem 0%nat 0%nat HT ltac:(rewrite C19; lia) S0).
    + rewrite (sum_ext (nc t) _ _ O). rewrite (sum_ext (nlc t) _ x) by (intros j Hj; apply X; rewrite <- N19; exact Hj).
      rewrite C19, N19. unfold fayalite, silica, x. cbn [sum Nat.eqb]. field.
    + rewrite O by (rewrite C19; lia). unfold fayalite, silica. cbn. lra.
Qed.
(** three of the four modes have SiO2 as the first component of the liquid *)
Theorem C184_case : In mode_melts modes /\ liquidFormula mode_melts 0 = "SiO2"%string /\ In mode_meltsFluid modes /\ liquidFormula mode_meltsFluid 0 = "SiO2"%string.
Proof. repeat split; try reflexivity; [right; left; reflexivity|right; right; left; reflexivity]. Qed.
(** The hypotheses of C177, C178, C179, C183 are met: one mole of each feldspar end member, entered as grams of oxides *)
Theorem C177_case : exists t i grams, initialised mode_meltsFluid t /\ label mode_meltsFluid i = "feldspar"%string /\ na t i = 3%nat
  /\ In SolnData.Fld SolnData.phases /\ SolnModel.ph_na SolnData.Fld = 3%nat /\ ElmModel.fromElements "feldspar" 3 = Some ElmModel.fld
  /\ let m := ElmModel.fld (elements t oxToElm grams) in
     (forall c, (c < 3)%nat -> m c = 1) /\ 0 < sum 3 m
     /\ SolnProofs.feasible SolnData.Fld 1000 1000 (fun j => SolnModel.con_r (SolnModel.ph_con SolnData.Fld) j m).
Proof.
  destruct C186_case as (t & i & It & Hi & Hp & Hn & Hl & _). exists t, i, (gramsOf t i (fun _ => 1)).
  assert (I : In SolnData.Fld SolnData.phases) by (left; reflexivity).
  split; [exact It|]. split; [exact Hl|]. split; [exact Hn|]. split; [exact I|]. split; [reflexivity|]. split; [reflexivity|]. intros m.
  assert (Hm : In mode_meltsFluid modes) by (right; right; left; reflexivity).
  assert (V : forall c, (c < 3)%nat -> m c = 1).
  { intros c Hc. pose (s := mkSoln 3 ElmModel.fld (fun m => m) (fun _ _ _ _ => 0) (fun _ _ _ _ => 0) (fun _ _ _ _ => 0) (fun _ _ _ _ => 0)).
    assert (F : ElmModel.fromElements (label mode_meltsFluid i) (na t i) = Some (sElem s)) by (rewrite Hl; reflexivity).
    destruct (C186_amounts_recovered mode_meltsFluid t i Hm It Hi Hp ltac:(lia) ltac:(rewrite Hl; discriminate)) as (conv & F' & Rec).
    rewrite F in F'. injection F' as F'. exact (Rec (fun _ => 1) ltac:(intros; lra) None s 1000 1000 F' c ltac:(lia)). }
  assert (S3 : sum 3 m = 3) by (cbn [sum]; rewrite !V by lia; lra).
  split; [exact V|]. split; [lra|].
  destruct (SolnProps.C14_C15_case SolnData.Fld I) as [_ Fe]. cbv zeta in Fe.
  destruct (SolnProofs.wf SolnData.Fld (SolnProps.wck _ I)) as (Ena & _ & _ & Cc & _).
  assert (E : forall j, SolnModel.con_r (SolnModel.ph_con SolnData.Fld) j m = SolnModel.con_r (SolnModel.ph_con SolnData.Fld) j (fun _ => 1)).
  { intros j. destruct (le_lt_dec (SolnModel.cv_nr (SolnModel.ph_con SolnData.Fld)) j) as [L|L]; [now rewrite !(ConProofs.con_r_out _ Cc) by exact L|].
    assert (T1 : SolnModel.total (SolnModel.cv_na (SolnModel.ph_con SolnData.Fld)) m = 3) by (rewrite Ena; exact S3).
    assert (T2 : SolnModel.total (SolnModel.cv_na (SolnModel.ph_con SolnData.Fld)) (fun _ => 1) = 3) by (rewrite Ena; cbn; lra).
    rewrite !(ConProofs.con_r_lin _ Cc) by (try exact L; lra). rewrite T1, T2. f_equal. change SolnSpec.sumTo with sum. apply sum_ext. intros c Hc. rewrite Ena in Hc.
    rewrite V by exact Hc. reflexivity. }
  rewrite (FunctionalExtensionality.functional_extensionality (fun j => SolnModel.con_r (SolnModel.ph_con SolnData.Fld) j m) _ E). exact Fe.
Qed.
