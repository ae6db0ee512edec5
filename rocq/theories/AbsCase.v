(** C200: a case that meets its hypotheses. C201: a solid written with a component one of whose oxides is not in the system. *)
From Coq Require Import Reals QArith Qcanon Qreals String Bool Arith ZArith Lia Lra.
From Verif Require Import MassModel MassSpec MassProofs InitModel InitProofs InitProps InitCert Tables QryLiquid SubModel SubSpec SubProofs SatModel SatProps AbsModel AbsSpec AbsProps.
From Coq Require Import List. Import ListNotations.
Local Open Scope R_scope.

Local Notation md := mode_meltsFluid.
Lemma md_in : In md modes. Proof. right; right; left. reflexivity. Qed.
Lemma md_ch : checkMode cert_bulk cert_melts md = true. Proof. vm_compute. reflexivity. Qed.
Lemma md_nlc t : initialised md t -> nlc t = 19%nat. Proof. intros I. rewrite (in_nlc md t I). reflexivity. Qed.
Lemma md_nc t : initialised md t -> nc t = 19%nat. Proof. intros I. rewrite (in_nc md t I). reflexivity. Qed.
Lemma md_npc t : initialised md t -> npc t = length (mSol md). Proof. intros I. exact (in_npc md t I). Qed.
(** the entries of the tables as numbers *)
Definition liqOx (k o : nat) : Q := this (getV (coef nOx (certM nOx cert_bulk) (nth k (Lm md) [])) o).
Definition solOx (c o : nat) : Q := this (getV (coef nOx (certM nOx cert_bulk) (nth c (Sm md) [])) o).
Definition solLiq (c k : nat) : Q := this (getV (coef nOx (certM nOx cert_melts) (nth c (Sm md) [])) k).
Section Num.
Variable t : Tab. Hypothesis It : initialised md t.
Lemma liqOx_ok k o : (k < 19)%nat -> (o < 19)%nat -> liqToOx t k o = Q2R (liqOx k o).
Proof.
  intros Hk Ho. destruct (ch_split md t It cert_melts md_ch) as (_ & (RO & _) & IL & _).
  assert (Kl : (k < length (mLiq md))%nat) by exact Hk.
  pose proof (in_liqToOx md t It k ltac:(rewrite (md_nlc t It); exact Hk)) as S. rewrite (md_nc t It) in S.
  exact (solved_unique nOx Om _ (nth k (Lm md) []) RO (IL _ (nth_In _ _ ltac:(unfold Lm; rewrite map_length; exact Kl))) _ S o Ho).
Qed.
Lemma solOx_ok c o : (c < length (mSol md))%nat -> (o < 19)%nat -> solToOx t c o = Q2R (solOx c o).
Proof.
  intros Hk Ho. destruct (ch_split md t It cert_melts md_ch) as (_ & (RO & _) & _ & IS & _).
  pose proof (in_solToOx md t It c ltac:(rewrite (md_npc t It); exact Hk)) as S. rewrite (md_nc t It) in S.
  exact (solved_unique nOx Om _ (nth c (Sm md) []) RO (IS _ (nth_In _ _ ltac:(unfold Sm; rewrite map_length; exact Hk))) _ S o Ho).
Qed.
Lemma solLiq_ok c o : (c < length (mSol md))%nat -> (o < 19)%nat -> solToLiq t c o = Q2R (solLiq c o).
Proof.
  intros Hk Ho. destruct (ch_split md t It cert_melts md_ch) as (_ & (_ & RL) & _ & _ & _ & IS & _).
  pose proof (in_solToLiq md t It c ltac:(rewrite (md_npc t It); exact Hk)) as S. rewrite (md_nlc t It) in S.
  exact (solved_unique nOx (Lm md) _ (nth c (Sm md) []) RL (IS _ (nth_In _ _ ltac:(unfold Sm; rewrite map_length; exact Hk))) _ S o Ho).
Qed.
End Num.
Lemma Q2R_zero q : Q2R q = 0 <-> Qeq_bool q 0 = true.
Proof.
  split; intros H.
  - apply Qeq_bool_iff. apply eqR_Qeq. rewrite H. unfold Q2R. cbn. lra.
  - apply Qeq_bool_iff, Qeq_eqR in H. rewrite H. unfold Q2R. cbn. lra.
Qed.
Lemma isZero_Q q : isZero (Q2R q) = Qeq_bool q 0.
Proof.
  unfold isZero. destruct (Req_EM_T (Q2R q) 0) as [E|E]; [symmetry; now apply Q2R_zero|].
  destruct (Qeq_bool q 0) eqn:B; [|reflexivity]. apply Q2R_zero in B. contradiction.
Qed.
Lemma forallb_ext_in (f g : nat -> bool) l : (forall x, In x l -> f x = g x) -> forallb f l = forallb g l.
Proof. induction l as [|a l IH]; intros H; [reflexivity|]. cbn [forallb]. rewrite (H a (or_introl eq_refl)), IH; [reflexivity|]. intros x Hx. apply H. now right. Qed.

(** a system of a few oxides, and one mole of each of a few phases *)
Section System.
Variables (oxides phases : list nat).
Definition bulkOf (o : nat) : R := if existsb (Nat.eqb o) oxides then 1 else 0.
Definition countOf (i : nat) : nat := if existsb (Nat.eqb i) phases then 1%nat else 0%nat.
Definition molesOf (i : nat) : R := if existsb (Nat.eqb i) phases then 1 else 0.
Variable t : Tab. Hypothesis It : initialised md t.
Lemma bulkOf_zero o : isZero (bulkOf o) = negb (existsb (Nat.eqb o) oxides).
Proof. unfold bulkOf, isZero. destruct (existsb _ _); destruct (Req_EM_T _ _); try reflexivity; lra. Qed.
Definition colOk (k : nat) : bool := forallb (fun o => negb (negb (existsb (Nat.eqb o) oxides) && negb (Qeq_bool (liqOx k o) 0))) (seq 0 19).
Lemma columns_are : AbsModel.columns t bulkOf = filter colOk (seq 0 19).
Proof.
  unfold AbsModel.columns. rewrite (md_nlc t It). apply filter_ext_in. intros k Hk. apply in_seq in Hk. unfold allowed, colOk. rewrite (md_nc t It).
  apply forallb_ext_in. intros o Ho. apply in_seq in Ho. rewrite bulkOf_zero, (liqOx_ok t It k o) by lia. now rewrite isZero_Q.
Qed.
Definition rowList (i : nat) : list (nat * nat) := if nth i (phaseTypes md) false && existsb (Nat.eqb i) phases then [(i, i)] else [].
Hypothesis Pure : forallb (fun i => Nat.eqb (naOf (phaseTypes md) i) 1) phases = true.
Lemma pure_na i : (i < npc t)%nat -> isPhase t i = true -> existsb (Nat.eqb i) phases = true -> na t i = 1%nat.
Proof.
  intros Hi P E. rewrite (in_na md t It i Hi P). apply existsb_exists in E. destruct E as (j & Hj & E). apply Nat.eqb_eq in E. subst j.
  rewrite forallb_forall in Pure. apply Nat.eqb_eq. now apply Pure.
Qed.
Lemma rows_are : AbsModel.rows t countOf molesOf = flat_map rowList (seq 0 (length (mSol md))).
Proof.
  unfold AbsModel.rows. rewrite (md_npc t It), !flat_map_concat_map. f_equal. apply map_ext_in. intros i Hi. apply in_seq in Hi.
  assert (Hn : (i < npc t)%nat) by (rewrite (md_npc t It); lia).
  unfold rowsOf, rowList, countOf. rewrite <- (in_type md t It i Hn). destruct (isPhase t i) eqn:P; [|reflexivity]. destruct (existsb (Nat.eqb i) phases) eqn:E; [|reflexivity].
  cbn [negb andb Nat.eqb]. now rewrite (pure_na i Hn P E).
Qed.
End System.

Definition absentIn (t : Tab) (bulk : nat -> R) (nSolid : nat -> nat) (solComp gs : nat -> R) (mixing : nat -> (nat -> R) -> nat -> R) (f left : Svd) : SatIn :=
  mkSatIn false false 1 0 (muAbsent t bulk nSolid solComp gs mixing f left) (liquidComp t bulk) gs (fun _ => 0) (fun _ => true) true (fun _ => 0%nat) solComp (fun _ _ _ _ => 0) (fun _ _ => 0).
Lemma absentIn_given t bulk nSolid solComp gs mixing f left : given t bulk nSolid solComp gs mixing (absentIn t bulk nSolid solComp gs mixing f left) f left.
Proof. repeat split. Qed.
Ltac rowQ := rewrite ?Nat.eqb_refl; unfold Q2R; cbn; lra.

(** quartz and corundum, and the energy of sillimanite *)
Definition qtz : nat := 55. Definition cor : nat := 72. Definition sil : nat := 73.
Definition oxAS : list nat := [0%nat; 2%nat]. Definition phAS : list nat := [qtz; cor].
Lemma names_AS : map (fun c => fst (fst (nth c (mSol md) (""%string, false, ""%string)))) [qtz; cor; sil] = ["quartz"; "corundum"; "sillimanite"]%string.
Proof. reflexivity. Qed.
Definition one2 : Svd := mkSvd (fun i k => if Nat.eqb i k then 1 else 0) (fun _ => 1) (fun i k => if Nat.eqb i k then 1 else 0).
Section AS.
Variable t : Tab. Hypothesis It : initialised md t.
Variables (gs : nat -> R) (mixing : nat -> (nat -> R) -> nat -> R).
Let psi (o : nat) : R := if Nat.eqb o 0 then gs qtz else if Nat.eqb o 2 then gs cor else 0.
Lemma solOx_row c l : (c < length (mSol md))%nat -> forallb (fun o => Qeq_bool (solOx c o) (nth o l 0%Q)) (seq 0 19) = true ->
  forall o, (o < 19)%nat -> solToOx t c o = Q2R (nth o l 0%Q).
Proof.
  intros Hc K o Ho. rewrite (solOx_ok t It c o Hc Ho). rewrite forallb_forall in K. specialize (K o ltac:(apply in_seq; lia)). apply Qeq_eqR, Qeq_bool_iff, K.
Qed.
Lemma solLiq_row c l : (c < length (mSol md))%nat -> forallb (fun o => Qeq_bool (solLiq c o) (nth o l 0%Q)) (seq 0 19) = true ->
  forall o, (o < 19)%nat -> solToLiq t c o = Q2R (nth o l 0%Q).
Proof.
  intros Hc K o Ho. rewrite (solLiq_ok t It c o Hc Ho). rewrite forallb_forall in K. specialize (K o ltac:(apply in_seq; lia)). apply Qeq_eqR, Qeq_bool_iff, K.
Qed.
Lemma solids : (qtz < npc t)%nat /\ (cor < npc t)%nat /\ (sil < npc t)%nat.
Proof. rewrite (md_npc t It). repeat split; apply Nat.ltb_lt; vm_compute; reflexivity. Qed.
Lemma qtz_ox o : (o < 19)%nat -> solToOx t qtz o = Q2R (nth o [1%Q] 0%Q).
Proof. apply solOx_row; [apply Nat.ltb_lt|]; vm_compute; reflexivity. Qed.
Lemma cor_ox o : (o < 19)%nat -> solToOx t cor o = Q2R (nth o [0%Q; 0%Q; 1%Q] 0%Q).
Proof. apply solOx_row; [apply Nat.ltb_lt|]; vm_compute; reflexivity. Qed.
Lemma sil_ox o : (o < 19)%nat -> solToOx t sil o = Q2R (nth o [1%Q; 0%Q; 1%Q] 0%Q).
Proof. apply solOx_row; [apply Nat.ltb_lt|]; vm_compute; reflexivity. Qed.
Lemma qtz_lq k : (k < 19)%nat -> solToLiq t qtz k = Q2R (nth k [1%Q] 0%Q).
Proof. apply solLiq_row; [apply Nat.ltb_lt|]; vm_compute; reflexivity. Qed.
Lemma cor_lq k : (k < 19)%nat -> solToLiq t cor k = Q2R (nth k [0%Q; 0%Q; 1%Q] 0%Q).
Proof. apply solLiq_row; [apply Nat.ltb_lt|]; vm_compute; reflexivity. Qed.
Lemma AS_rows : AbsModel.rows t (countOf phAS) (molesOf phAS) = [(qtz, qtz); (cor, cor)].
Proof. rewrite (rows_are phAS t It) by (vm_compute; reflexivity). vm_compute. reflexivity. Qed.
Lemma AS_columns : AbsModel.columns t (bulkOf oxAS) = [0%nat; 2%nat].
Proof. rewrite (columns_are oxAS t It). vm_compute. reflexivity. Qed.
Lemma AS_present ph c : AbsSpec.present t (countOf phAS) (molesOf phAS) ph c <-> (ph = qtz /\ c = qtz) \/ (ph = cor /\ c = cor).
Proof.
  rewrite <- in_rows, AS_rows. cbn [In]. split.
  - intros [H|[H|[]]]; injection H as <- <-; auto.
  - intros [[-> ->]|[-> ->]]; auto.
Qed.
Lemma sum19 (f : nat -> R) a b : (forall o, (o < 19)%nat -> o <> 0%nat -> o <> 2%nat -> f o = 0) -> f 0%nat = a -> f 2%nat = b -> sum 19 f = a + b.
Proof.
  intros Z A B. rewrite (sum_ext 19 _ (fun o => (if Nat.eqb o 0 then a else 0) + (if Nat.eqb o 2 then b else 0))).
  - rewrite sum_plus, !sum_one_f. cbn. ring.
  - intros o Ho. destruct (Nat.eqb_spec o 0) as [->|]; [cbn; lra|]. destruct (Nat.eqb_spec o 2) as [->|]; [cbn; lra|]. rewrite Z by auto. ring.
Qed.
Theorem C200_case : inEquilibrium t (countOf phAS) (molesOf phAS) gs mixing psi /\ expressible t (bulkOf oxAS) (countOf phAS) (molesOf phAS) /\
  svdOf (length (AbsModel.rows t (countOf phAS) (molesOf phAS))) (length (AbsModel.columns t (bulkOf oxAS))) (AbsModel.matrix t (bulkOf oxAS) (countOf phAS) (molesOf phAS)) one2 /\
  (let x := absentIn t (bulkOf oxAS) (countOf phAS) (molesOf phAS) gs mixing one2 one2 in examined t x sil /\
   fst (fst (evaluateSaturationState t x (fun _ => 0))) sil = gs sil - gs qtz - gs cor).
Proof.
  destruct solids as (Lq & Lc & Ls).
  assert (Nc : nc t = 19%nat) by exact (md_nc t It). assert (Nl : nlc t = 19%nat) by exact (md_nlc t It).
  assert (Eq : inEquilibrium t (countOf phAS) (molesOf phAS) gs mixing psi).
  { intros ph c P. apply AS_present in P. unfold potentialOf. rewrite Nc.
    assert (Np : na t ph = 1%nat).
    { destruct P as [[-> _]|[-> _]]; (rewrite (in_na md t It) by (first [assumption | rewrite (in_type md t It) by assumption; vm_compute; reflexivity])); vm_compute; reflexivity. }
    rewrite Np. cbn [Nat.eqb]. symmetry. destruct P as [[-> ->]|[-> ->]].
    - rewrite (sum19 _ (gs qtz) 0); [ring| | |]; [intros o Ho N0 N2|..].
      + unfold psi. apply Nat.eqb_neq in N0, N2. rewrite N0, N2. ring.
      + rewrite qtz_ox by lia. unfold psi. rowQ.
      + rewrite qtz_ox by lia. rowQ.
    - rewrite (sum19 _ 0 (gs cor)); [ring| | |]; [intros o Ho N0 N2|..].
      + unfold psi. apply Nat.eqb_neq in N0, N2. rewrite N0, N2. ring.
      + rewrite cor_ox by lia. rowQ.
      + rewrite cor_ox by lia. unfold psi. rowQ. }
  assert (Ex : expressible t (bulkOf oxAS) (countOf phAS) (molesOf phAS)).
  { intros ph c k P Hk N. apply (allowed_iff t (bulkOf oxAS)).
    assert (K : In k [0%nat; 2%nat]).
    { rewrite Nl in Hk. apply AS_present in P. destruct P as [[-> ->]|[-> ->]].
      - left. destruct (Nat.eq_dec k 0) as [->|Z]; [reflexivity|]. exfalso. apply N.
        rewrite qtz_lq by exact Hk.
        rewrite nth_overflow by (cbn; lia). unfold Q2R. cbn. lra.
      - right; left. destruct (Nat.eq_dec k 2) as [->|Z]; [reflexivity|]. exfalso. apply N.
        rewrite cor_lq by exact Hk.
        destruct k as [|[|[|k]]]; [unfold Q2R; cbn; lra|unfold Q2R; cbn; lra|lia|rewrite nth_overflow by (cbn; lia); unfold Q2R; cbn; lra]. }
    rewrite <- AS_columns in K. unfold AbsModel.columns in K. apply filter_In in K. apply K. }
  assert (Fa : svdOf (length (AbsModel.rows t (countOf phAS) (molesOf phAS))) (length (AbsModel.columns t (bulkOf oxAS))) (AbsModel.matrix t (bulkOf oxAS) (countOf phAS) (molesOf phAS)) one2).
  { rewrite AS_rows, AS_columns. cbn [length]. constructor.
    - intros i j Hi Hj. unfold AbsModel.matrix, rowAt. rewrite AS_rows, AS_columns. cbn [one2 svU svS svV sum].
      destruct i as [|[|i]]; [| |lia]; destruct j as [|[|j]]; try lia; cbn [nth snd].
      + rewrite qtz_lq by (apply Nat.ltb_lt; reflexivity); unfold Q2R; cbn [nth Qnum Qden Nat.eqb]; field.
      + rewrite qtz_lq by (apply Nat.ltb_lt; reflexivity); unfold Q2R; cbn [nth Qnum Qden Nat.eqb]; field.
      + rewrite cor_lq by (apply Nat.ltb_lt; reflexivity); unfold Q2R; cbn [nth Qnum Qden Nat.eqb]; field.
      + rewrite cor_lq by (apply Nat.ltb_lt; reflexivity); unfold Q2R; cbn [nth Qnum Qden Nat.eqb]; field.
    - intros k l Hk Hl. cbn [one2 svU sum]. destruct k as [|[|k]]; destruct l as [|[|l]]; try lia; cbn; ring.
    - intros k l Hk Hl. cbn [one2 svV sum]. destruct k as [|[|k]]; destruct l as [|[|l]]; try lia; cbn; ring.
    - intros k Hk. right. cbn [one2 svS]. lra. }
  split; [exact Eq|]. split; [exact Ex|]. split; [exact Fa|].
  cbv zeta. set (x := absentIn _ _ _ _ _ _ _ _).
  assert (P : isPhase t sil = true) by (rewrite (in_type md t It) by assumption; vm_compute; reflexivity).
  assert (E : examined t x sil).
  { repeat split; auto. }
  split; [exact E|].
  rewrite (C200_pure_phase md t md_in It (bulkOf oxAS) (countOf phAS) (molesOf phAS) gs mixing psi one2 one2 Eq Ex) with (e := fun c => if Nat.eqb c qtz then 1 else if Nat.eqb c cor then 1 else 0).
  - unfold affinity. rewrite Nc, (sum19 _ (gs qtz) (gs cor)); [ring| | |]; [intros o Ho N0 N2|..].
    + unfold psi. apply Nat.eqb_neq in N0, N2. rewrite N0, N2. ring.
    + rewrite sil_ox by lia. unfold psi. rowQ.
    + rewrite sil_ox by lia. unfold psi. rowQ.
  - rewrite AS_rows, AS_columns. cbn. lia.
  - exact Fa.
  - apply absentIn_given.
  - exact E.
  - rewrite (in_na md t It sil Ls P). vm_compute. reflexivity.
  - split.
    + intros c' Hc' N. destruct (Nat.eqb_spec c' qtz) as [->|]; [exists qtz; apply AS_present; now left|]. destruct (Nat.eqb_spec c' cor) as [->|]; [exists cor; apply AS_present; now right|lra].
    + intros o Ho. rewrite Nc in Ho.
      rewrite (sum_ext (npc t) _ (fun c' => (if Nat.eqb c' qtz then solToOx t qtz o else 0) + (if Nat.eqb c' cor then solToOx t cor o else 0))).
      2:{ intros c' _. destruct (Nat.eqb_spec c' qtz) as [->|]; [cbn; lra|]. destruct (Nat.eqb_spec c' cor) as [->|]; lra. }
      rewrite sum_plus, !sum_one_f. apply Nat.ltb_lt in Lq, Lc. rewrite Lq, Lc, sil_ox, qtz_ox, cor_ox by exact Ho.
      destruct o as [|[|[|o]]]; unfold Q2R; cbn; try lra.
Qed.
End AS.

(** calcite in a system of CaO and CO2: the liquid component CaSiO3 it is written with has an oxide that is not there, and the
    saturation test says of aragonite that it is just stable, whatever its energy *)
Definition cal : nat := 103. Definition arg : nat := 104.
Definition oxCC : list nat := [10%nat; 15%nat]. Definition phCC : list nat := [cal].
Lemma names_CC : map (fun c => fst (fst (nth c (mSol md) (""%string, false, ""%string)))) [cal; arg] = ["calcite"; "aragonite"]%string /\ oxideFormula 10 = "CaO"%string /\ oxideFormula 15 = "CO2"%string.
Proof. repeat split. Qed.
Section CC.
Variable t : Tab. Hypothesis It : initialised md t.
Lemma CC_rows : AbsModel.rows t (countOf phCC) (molesOf phCC) = [(cal, cal)].
Proof. rewrite (rows_are phCC t It) by (vm_compute; reflexivity). vm_compute. reflexivity. Qed.
Lemma CC_columns : AbsModel.columns t (bulkOf oxCC) = [14%nat].
Proof. rewrite (columns_are oxCC t It). vm_compute. reflexivity. Qed.
Lemma CC_same o : (o < 19)%nat -> solToOx t arg o = solToOx t cal o.
Proof.
  intros Ho. assert (K : forallb (fun o => Qeq_bool (solOx arg o) (solOx cal o)) (seq 0 19) = true) by (vm_compute; reflexivity).
  rewrite !(solOx_ok t It) by (first [exact Ho | apply Nat.ltb_lt; vm_compute; reflexivity]). rewrite forallb_forall in K. apply Qeq_eqR, Qeq_bool_iff, K, in_seq. lia.
Qed.
Lemma CC_present ph c : AbsSpec.present t (countOf phCC) (molesOf phCC) ph c <-> ph = cal /\ c = cal.
Proof.
  rewrite <- in_rows, CC_rows. cbn [In]. split; [intros [H|[]]; injection H as <- <-; auto|intros [-> ->]; auto].
Qed.
Theorem C201_refuted (gs : nat -> R) mixing f left :
  let psi o := if Nat.eqb o 10 then gs cal else 0 in let x := absentIn t (bulkOf oxCC) (countOf phCC) (molesOf phCC) gs mixing f left in
  inEquilibrium t (countOf phCC) (molesOf phCC) gs mixing psi /\
  madeOf t (countOf phCC) (molesOf phCC) arg (fun c => if Nat.eqb c cal then 1 else 0) /\
  (length (AbsModel.columns t (bulkOf oxCC)) <= length (AbsModel.rows t (countOf phCC) (molesOf phCC)))%nat /\ examined t x arg /\
  affinity t gs psi arg = gs arg - gs cal /\ fst (fst (evaluateSaturationState t x (fun _ => 0))) arg = 0.
Proof.
  intros psi x. assert (Nc : nc t = 19%nat) by exact (md_nc t It). assert (Nl : nlc t = 19%nat) by exact (md_nlc t It).
  assert (Lc : (cal < npc t)%nat) by (rewrite (md_npc t It); apply Nat.ltb_lt; vm_compute; reflexivity).
  assert (La : (arg < npc t)%nat) by (rewrite (md_npc t It); apply Nat.ltb_lt; vm_compute; reflexivity).
  assert (Pc : isPhase t cal = true) by (rewrite (in_type md t It) by assumption; vm_compute; reflexivity).
  assert (Pa : isPhase t arg = true) by (rewrite (in_type md t It) by assumption; vm_compute; reflexivity).
  assert (Nca : na t cal = 1%nat) by (rewrite (in_na md t It cal Lc Pc); vm_compute; reflexivity).
  assert (Naa : na t arg = 1%nat) by (rewrite (in_na md t It arg La Pa); vm_compute; reflexivity).
  assert (Ps : sum 19 (fun o => solToOx t cal o * psi o) = gs cal).
  { rewrite (sum_ext 19 _ (fun o => if Nat.eqb o 10 then gs cal else 0)); [rewrite sum_one_f; reflexivity|]. intros o Ho. unfold psi.
    destruct (Nat.eqb_spec o 10) as [->|]; [|ring]. rewrite (solOx_ok t It) by (first [exact Ho | apply Nat.ltb_lt; vm_compute; reflexivity]).
    assert (E : Qeq_bool (solOx cal 10) 1 = true) by (vm_compute; reflexivity). rewrite (Qeq_eqR _ _ (proj1 (Qeq_bool_iff _ _) E)). unfold Q2R. cbn [Qnum Qden]. field. }
  assert (E : examined t x arg) by (repeat split; auto).
  split; [|split; [|split; [|split; [exact E|split]]]].
  - intros ph c P. apply CC_present in P. destruct P as [-> ->]. unfold potentialOf. rewrite Nca, Nc. cbn [Nat.eqb]. now rewrite Ps.
  - split.
    + intros c' _ N. destruct (Nat.eqb_spec c' cal) as [Z|Z]; [exists cal; apply CC_present; split; [reflexivity|exact Z]|exfalso; apply N; reflexivity].
    + intros o Ho. rewrite Nc in Ho. rewrite (CC_same o Ho), (sum_ext (npc t) _ (fun c' => if Nat.eqb c' cal then solToOx t cal o else 0)).
      * rewrite sum_one_f. apply Nat.ltb_lt in Lc. now rewrite Lc.
      * intros c' _. destruct (Nat.eqb_spec c' cal) as [->|]; lra.
  - rewrite CC_rows, CC_columns. cbn. lia.
  - unfold affinity. rewrite Nc, (sum_ext 19 _ (fun o => solToOx t cal o * psi o)) by (intros o Ho; now rewrite (CC_same o Ho)). now rewrite Ps.
  - apply (proj1 (C131_pure_phase t x (init_layout md t It) (fun _ => 0) arg E Naa)).
    exists 10%nat. split; [rewrite Nl; lia|]. split.
    + rewrite (solLiq_ok t It) by (first [lia | apply Nat.ltb_lt; vm_compute; reflexivity]). intros Z. apply Q2R_zero in Z. revert Z. vm_compute. discriminate.
    + change (liquidComp t (bulkOf oxCC) 10%nat = 0). unfold liquidComp.
      destruct (allowed t (bulkOf oxCC) 10) eqn:A; [|reflexivity]. exfalso.
      assert (I : In 10%nat (AbsModel.columns t (bulkOf oxCC))) by (apply filter_In; split; [apply in_seq; lia|exact A]).
      rewrite CC_columns in I. destruct I as [I|[]]. discriminate.
Qed.
End CC.

(** sillimanite alone, in a system of as much SiO2 as Al2O3: what is said of quartz is whatever memory held *)
Definition phS : list nat := [sil].
Section S.
Variable t : Tab. Hypothesis It : initialised md t.
Lemma S_rows : AbsModel.rows t (countOf phS) (molesOf phS) = [(sil, sil)].
Proof. rewrite (rows_are phS t It) by (vm_compute; reflexivity). vm_compute. reflexivity. Qed.
Lemma sil_lq k : (k < 19)%nat -> solToLiq t sil k = Q2R (nth k [1%Q; 0%Q; 1%Q] 0%Q).
Proof. apply (solLiq_row t It); [apply Nat.ltb_lt|]; vm_compute; reflexivity. Qed.
Theorem C202_case (gs : nat -> R) mixing f w : gs sil <> 0 -> exists left,
  let x := absentIn t (bulkOf oxAS) (countOf phS) (molesOf phS) gs mixing f left in
  examined t x qtz /\ fst (fst (evaluateSaturationState t x (fun _ => 0))) qtz = w.
Proof.
  intros G. assert (Nl : nlc t = 19%nat) by exact (md_nlc t It).
  assert (Lq : (qtz < npc t)%nat) by (rewrite (md_npc t It); apply Nat.ltb_lt; vm_compute; reflexivity).
  assert (Ls : (sil < npc t)%nat) by (rewrite (md_npc t It); apply Nat.ltb_lt; vm_compute; reflexivity).
  assert (Pq : isPhase t qtz = true) by (rewrite (in_type md t It) by assumption; vm_compute; reflexivity).
  assert (Ps : isPhase t sil = true) by (rewrite (in_type md t It) by assumption; vm_compute; reflexivity).
  assert (Nq : na t qtz = 1%nat) by (rewrite (in_na md t It qtz Lq Pq); vm_compute; reflexivity).
  assert (Ns : na t sil = 1%nat) by (rewrite (in_na md t It sil Ls Ps); vm_compute; reflexivity).
  assert (A0 : allowed t (bulkOf oxAS) 0 = true).
  { assert (I : In 0%nat (AbsModel.columns t (bulkOf oxAS))) by (rewrite (AS_columns t It); now left). unfold AbsModel.columns in I. apply filter_In in I. apply I. }
  destruct (C202_refuted t (bulkOf oxAS) (countOf phS) (molesOf phS) gs mixing f 0 (gs qtz - w)) as [left L].
  - rewrite S_rows, (AS_columns t It). cbn. lia.
  - rewrite S_rows. discriminate.
  - exact A0.
  - rewrite Nl. lia.
  - exists 0%nat. rewrite S_rows. split; [cbn; lia|]. split; [|intros r' L' N'; cbn in L'; lia].
    unfold AbsModel.matrix, rowAt. rewrite S_rows, (AS_columns t It). cbn [nth snd]. unfold potential. rewrite Ns. cbn [Nat.eqb].
    rewrite sil_lq by lia. cbn [nth]. unfold Q2R. cbn [Qnum Qden]. intros Z. apply G. lra.
  - exists left. intros x. assert (E : examined t x qtz) by (repeat split; auto). split; [exact E|].
    destruct (C131_pure_phase t x (init_layout md t It) (fun _ => 0) qtz E Nq) as [_ D]. rewrite D.
    + unfold drive. change (gs qtz - sum (nlc t) (fun k => solToLiq t qtz k * muAbsent t (bulkOf oxAS) (countOf phS) (molesOf phS) gs mixing f left k) = w).
      rewrite Nl, (sum_ext 19 _ (fun k => if Nat.eqb k 0 then gs qtz - w else 0)); [rewrite sum_one_f; cbn [Nat.ltb Nat.leb]; lra|].
      intros k Hk. rewrite (qtz_lq t It) by exact Hk. destruct (Nat.eqb_spec k 0) as [Z|Z].
      * rewrite Z, L. cbn [nth]. unfold Q2R. cbn [Qnum Qden]. lra.
      * rewrite nth_overflow by (cbn; lia). unfold Q2R. cbn [Qnum Qden]. lra.
    + intros (k & Hk & N & Z). rewrite Nl in Hk. rewrite (qtz_lq t It) in N by exact Hk. destruct (Nat.eq_dec k 0) as [K|K].
      * rewrite K in Z. change (liquidComp t (bulkOf oxAS) 0%nat = 0) in Z. unfold liquidComp in Z. rewrite A0 in Z. lra.
      * apply N. rewrite nth_overflow by (cbn; lia). unfold Q2R. cbn [Qnum Qden]. lra.
Qed.
End S.
