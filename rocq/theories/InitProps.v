(** Property C46: the conversion tables computed at start-up agree with the
    chemical formulas they are computed from, in all four model variants. *)
From Coq Require Import Reals Lia Lra Bool Arith Ascii String List ZArith QArith Qcanon Qreals.
From Verif Require Import Str Num Tables ElemTable FormulaModel FormulaProofs FormulaProps MassModel MassSpec MassProofs MassProps InitModel InitCert InitProofs.
Import List ListNotations.
Local Open Scope R_scope.

(** The number of atoms of element k in one mole of what a formula says, and the
    atomic weight of element k. *)
Definition atoms (f : string) (k : nat) : R := QR (getV (elemRow f) k).
Definition atomicWeight (k : nat) : R := match k with O => 0 | S _ => QR (weight real_elems k) end.
Definition solidFormula (m : Mode) (c : nat) : string := snd (nth c (mSol m) (""%string, false, ""%string)).
Definition liquidFormula (m : Mode) (j : nat) : string := nth j (mLiq m) ""%string.
Definition oxideFormula (o : nat) : string := nth o tbl_bulk ""%string.

Lemma oxE_atoms o k : (o < length tbl_bulk)%nat -> oxE o k = atoms (oxideFormula o) k.
Proof. intros H. unfold oxE, getM, Om, atoms, oxideFormula. rewrite (nth_indep _ [] (elemRow ""%string)) by now rewrite map_length. now rewrite map_nth. Qed.
Lemma liqE_atoms m j k : (j < length (mLiq m))%nat -> liqE m j k = atoms (liquidFormula m j) k.
Proof. intros H. unfold liqE, getM, Lm, atoms, liquidFormula. rewrite (nth_indep _ [] (elemRow ""%string)) by now rewrite map_length. now rewrite map_nth. Qed.
Lemma solE_atoms m c k : (c < length (mSol m))%nat -> solE m c k = atoms (solidFormula m c) k.
Proof.
  intros H. unfold solE, getM, Sm, atoms, solidFormula.
  rewrite (nth_indep _ [] ((fun e : string * bool * string => elemRow (snd e)) (""%string, false, ""%string))) by now rewrite map_length.
  rewrite (map_nth (fun e : string * bool * string => elemRow (snd e))). reflexivity.
Qed.

(** ** Weights *)
Lemma fold_sum (g w : nat -> Qc) n : forall a, QR (fold_right (fun k q => (g (S k) * w (S k) + q)%Qc) a (seq 0 n)) =
  sum n (fun k => QR (g (S k)) * QR (w (S k))) + QR a.
Proof.
  induction n; intros a; [cbn; ring|]. rewrite seq_S, fold_right_app. cbn [fold_right plus]. rewrite IHn, QR_plus, QR_mult. cbn [sum]. ring.
Qed.
Lemma sum_shift n f : sum (S n) f = f O + sum n (fun k => f (S k)).
Proof. induction n; [cbn; ring|]. change (sum (S (S n)) f) with (sum (S n) f + f (S n)). rewrite IHn. cbn [sum]. ring. Qed.
Lemma QR_opp a : QR (- a)%Qc = - QR a.
Proof. unfold QR. cbn [this Qcopp Q2Qc]. rewrite (Qeq_eqR _ _ (Qred_correct _)). apply Q2R_opp. Qed.

Lemma weight_atoms f : okFormula f = true -> QR (fst (parsed f)) = sum NE (fun k => atoms f k * atomicWeight k).
Proof.
  intros K.
  assert (A : sum NE (fun k => atoms f k * atomicWeight k) =
              sum (length real_elems) (fun k => QR (snd (parsed f) (S k)) * QR (weight real_elems (S k)))).
  { unfold NE. rewrite sum_shift. cbn [atomicWeight].
    rewrite (sum_ext _ (fun k => atoms f (S k) * QR (weight real_elems (S k))) (fun k => QR (snd (parsed f) (S k)) * QR (weight real_elems (S k)))); [ring|].
    intros k Hk. unfold atoms, elemRow. rewrite getV_map_seq by (unfold NE; lia). reflexivity. }
  rewrite A. unfold okFormula in K. unfold parsed.
  destruct (formulaToMwStoich real_elems atofQ (lit f) zero_st) as [g| |mw g|] eqn:E; try discriminate.
  2:{ destruct (parse_weight _ _ _ _ _ _ E) as [W _]. cbn [fst snd]. rewrite W.
    unfold Qcminus. rewrite QR_plus, QR_opp. unfold wsum. rewrite !fold_sum, QR_0.
    rewrite (sum_0 _ (fun k => QR (zero_st (S k)) * QR (weight real_elems (S k)))); [ring|].
    intros. unfold zero_st. rewrite QR_0. ring. }
  - destruct f; [|discriminate]. cbn in E. injection E as <-. cbn [fst snd]. rewrite QR_0. symmetry. apply sum_0.
    intros. unfold zero_st. rewrite QR_0. ring.
Qed.

(** ** The layout of the solids table *)
Lemma components_nth l : (components l <= length l)%nat /\ forall j, (j < components l)%nat -> nth j l true = false.
Proof.
  induction l as [|[|] l [A B]]; cbn; [split; [lia|intros; lia]|split; [lia|intros; lia]|].
  split; [lia|]. intros [|j] Hj; [reflexivity|]. apply B. lia.
Qed.
Lemma nth_skipn' {A} (d : A) : forall n l j, nth j (skipn n l) d = nth (n + j) l d.
Proof. induction n; intros l j; [reflexivity|]. destruct l; [now destruct j|]. cbn. apply IHn. Qed.
Lemma naOf_layout l i : (i < length l)%nat -> (1 <= naOf l i)%nat /\
  ((1 < naOf l i)%nat -> (i + naOf l i < length l)%nat /\ forall j, (1 <= j <= naOf l i)%nat -> nth (i + j) l false = false).
Proof.
  intros Hi. unfold naOf. split; [lia|]. intros H.
  destruct (components_nth (skipn (S i) l)) as [A B]. rewrite skipn_length in A.
  rewrite Nat.max_l by lia. split; [lia|]. intros j Hj.
  specialize (B (j - 1)%nat ltac:(lia)). rewrite nth_skipn' in B.
  replace (S i + (j - 1))%nat with (i + j)%nat in B by lia. rewrite (nth_indep _ false true); [exact B|lia].
Qed.

Section Tables.
Variable m : Mode.
Hypothesis Hm : In m modes.
Variable t : Tab.
Hypothesis It : initialised m t.

Lemma init_layout : layout t.
Proof.
  intros i Hi Pi. pose proof (in_na m t It i Hi Pi) as N.
  assert (L : length (phaseTypes m) = npc t). { unfold phaseTypes. rewrite map_length. symmetry. apply It. }
  destruct (naOf_layout (phaseTypes m) i ltac:(lia)) as [A B]. rewrite N. split; [exact A|].
  intros H. destruct (B H) as [C D]. split; [lia|]. intros j Hj. rewrite (in_type m t It) by lia. now apply D.
Qed.

Section C.
Variable c : list (nat * list Q).
Hypothesis Ch : checkMode cert_bulk c m = true.
Let P := certM nOx cert_bulk.
Let Q := certM nOx c.
Lemma ch_split : (nc t = nOx /\ nlc t = nOx) /\
  (rightInverse nOx Om P = true /\ rightInverse nOx (Lm m) Q = true) /\
  (forall b, In b (Lm m) -> inSpan nOx Om P b = true) /\ (forall b, In b (Sm m) -> inSpan nOx Om P b = true) /\
  (forall b, In b Om -> inSpan nOx (Lm m) Q b = true) /\ (forall b, In b (Sm m) -> inSpan nOx (Lm m) Q b = true) /\
  (forall f, In f tbl_bulk -> okFormula f = true) /\ (forall e, In e (mSol m) -> okFormula (snd e) = true).
Proof.
  pose proof Ch as K. unfold checkMode in K. cbv zeta in K. repeat (apply andb_prop in K; destruct K as [K ?]).
  rewrite (in_nc m t It), (in_nlc m t It).
  repeat match goal with H : Nat.eqb _ _ = true |- _ => apply Nat.eqb_eq in H end.
  repeat match goal with H : forallb _ _ = true |- _ => rewrite forallb_forall in H end.
  subst P Q. split; [split; assumption|]. split; [split; assumption|]. split; [assumption|]. split; [assumption|]. split; [assumption|]. split; [assumption|]. split; assumption.
Qed.
Lemma in_O o : (o < nOx)%nat -> In (nth o Om []) Om.
Proof. intros H. apply nth_In. unfold Om. rewrite map_length. exact H. Qed.
Lemma in_L j : (j < nlc t)%nat -> In (nth j (Lm m) []) (Lm m).
Proof. intros H. apply nth_In. unfold Lm. rewrite map_length. rewrite (in_nlc m t It) in H. exact H. Qed.
Lemma in_S i : (i < npc t)%nat -> In (nth i (Sm m) []) (Sm m).
Proof. intros H. apply nth_In. unfold Sm. rewrite map_length. rewrite (in_npc m t It) in H. exact H. Qed.

(** solved entries conserve elements *)
Lemma solved_conserves n A R b e : rightInverse n A R = true -> inSpan n A R b = true ->
  solved n (fun i k => QR (getM A i k)) (fun k => QR (getV b k)) e ->
  forall k, (k < NE)%nat -> QR (getV b k) = sum n (fun i => e i * QR (getM A i k)).
Proof.
  intros RI IS S k Hk. rewrite (cf_comb n A R b IS k Hk). apply sum_ext. intros i Hi.
  now rewrite (solved_unique n A R b RI IS e S i Hi).
Qed.

Lemma cons_liqToOx j : (j < nlc t)%nat -> forall k, (k < NE)%nat -> liqE m j k = sum (nc t) (fun o => liqToOx t j o * oxE o k).
Proof.
  intros Hj. destruct ch_split as ((En & El) & (RO & RL) & IL & IS & IO & ISL & _). pose proof (in_liqToOx m t It j Hj) as S.
  rewrite En in *. exact (solved_conserves _ _ _ _ _ RO (IL _ (in_L j Hj)) S).
Qed.
Lemma cons_solToOx i : (i < npc t)%nat -> forall k, (k < NE)%nat -> solE m i k = sum (nc t) (fun o => solToOx t i o * oxE o k).
Proof.
  intros Hj. destruct ch_split as ((En & El) & (RO & RL) & IL & IS & IO & ISL & _). pose proof (in_solToOx m t It i Hj) as S.
  rewrite En in *. exact (solved_conserves _ _ _ _ _ RO (IS _ (in_S i Hj)) S).
Qed.
Lemma cons_oxToLiq o : (o < nc t)%nat -> forall k, (k < NE)%nat -> oxE o k = sum (nlc t) (fun j => oxToLiq t o j * liqE m j k).
Proof.
  intros Ho. destruct ch_split as ((En & El) & (RO & RL) & IL & IS & IO & ISL & _). pose proof (in_oxToLiq m t It o Ho) as S.
  rewrite En, El in *. exact (solved_conserves _ _ _ _ _ RL (IO _ (in_O o Ho)) S).
Qed.
Lemma cons_solToLiq i : (i < npc t)%nat -> forall k, (k < NE)%nat -> solE m i k = sum (nlc t) (fun j => solToLiq t i j * liqE m j k).
Proof.
  intros Hj. destruct ch_split as ((En & El) & (RO & RL) & IL & IS & IO & ISL & _). pose proof (in_solToLiq m t It i Hj) as S.
  rewrite El in *. exact (solved_conserves _ _ _ _ _ RL (ISL _ (in_S i Hj)) S).
Qed.

Lemma ox_independent d : (forall k, (k < NE)%nat -> sum (nc t) (fun o => d o * oxE o k) = 0) -> forall o, (o < nc t)%nat -> d o = 0.
Proof.
  destruct ch_split as ((En & El) & (RO & RL) & _). rewrite En. intros H o Ho.
  exact (independent nOx oxE _ (rightInverse_ok nOx Om P RO) d H o Ho).
Qed.
(** the oxide contents of a combination of liquid components with known elements *)
Lemma through_liquid x y : (forall k, (k < NE)%nat -> sum (nlc t) (fun j => x j * liqE m j k) = sum (nc t) (fun o => y o * oxE o k)) ->
  forall o, (o < nc t)%nat -> sum (nlc t) (fun j => x j * liqToOx t j o) = y o.
Proof.
  intros H o Ho.
  pose proof (ox_independent (fun o => sum (nlc t) (fun j => x j * liqToOx t j o) - y o)) as I.
  enough (sum (nlc t) (fun j => x j * liqToOx t j o) - y o = 0) by lra. apply I; auto. intros k Hk.
  rewrite (sum_ext _ _ (fun o => sum (nlc t) (fun j => x j * liqToOx t j o) * oxE o k + - (y o * oxE o k))) by (intros; ring).
  rewrite sum_plus, sum_opp, <- H by auto.
  rewrite (sum_ext (nc t) _ (fun o => sum (nlc t) (fun j => x j * liqToOx t j o * oxE o k))) by (intros; now rewrite sum_scal_r).
  rewrite sum_swap. rewrite (sum_ext (nlc t) _ (fun j => x j * liqE m j k)); [ring|].
  intros j Hj. rewrite (cons_liqToOx j Hj k Hk), <- sum_scal. apply sum_ext. intros; ring.
Qed.
Lemma init_agrees o : (o < nc t)%nat -> agrees t (oxide t o).
Proof.
  intros Ho i Hi. cbn [perSol perLiq oxide]. symmetry. apply (through_liquid (solToLiq t i) (solToOx t i)); auto.
  intros k Hk. rewrite <- cons_solToLiq, <- cons_solToOx; auto.
Qed.
Lemma init_invertible : invertible t.
Proof.
  intros mm o Ho. apply (through_liquid (fun j => sum (nc t) (fun o' => mm o' * oxToLiq t o' j)) mm); auto.
  intros k Hk. rewrite (sum_ext (nlc t) _ (fun j => sum (nc t) (fun o' => mm o' * oxToLiq t o' j * liqE m j k))) by (intros; now rewrite sum_scal_r).
  rewrite sum_swap. apply sum_ext. intros o' Ho'. rewrite (cons_oxToLiq o' Ho' k Hk), <- sum_scal. apply sum_ext. intros; ring.
Qed.
Lemma omw_atoms o : (o < nc t)%nat -> omw t o = sum NE (fun k => oxE o k * atomicWeight k).
Proof.
  intros Ho. destruct ch_split as ((En & El) & _ & _ & _ & _ & _ & OB & OS).
  rewrite (in_omw m t It o Ho). rewrite (in_nc m t It) in Ho. rewrite weight_atoms.
  - apply sum_ext. intros k Hk. now rewrite oxE_atoms.
  - apply OB. now apply nth_In.
Qed.
Lemma smw_atoms i : (i < npc t)%nat -> smw t i = sum NE (fun k => solE m i k * atomicWeight k).
Proof.
  intros Hi. destruct ch_split as ((En & El) & _ & _ & _ & _ & _ & OB & OS).
  rewrite (in_smw m t It i Hi). rewrite (in_npc m t It) in Hi. rewrite weight_atoms.
  - apply sum_ext. intros k Hk. now rewrite solE_atoms.
  - apply OS. now apply nth_In.
Qed.
Lemma init_weight i : (i < npc t)%nat -> smw t i = sum (nc t) (fun o => solToOx t i o * omw t o).
Proof.
  intros Hi. rewrite smw_atoms by auto.
  rewrite (sum_ext NE _ (fun k => sum (nc t) (fun o => solToOx t i o * oxE o k * atomicWeight k))).
  2:{ intros k Hk. rewrite (cons_solToOx i Hi k Hk), <- sum_scal_r. reflexivity. }
  rewrite sum_swap. apply sum_ext. intros o Ho. rewrite (omw_atoms o Ho), <- sum_scal. apply sum_ext. intros; ring.
Qed.
End C.
End Tables.

(** ** C46 *)

(** A table row [coef] (n entries) writes a formula as a combination of n other
    formulas, with the same atoms of every element. *)
Definition sameAtoms (f : string) (n : nat) (parts : nat -> string) (coef : nat -> R) : Prop :=
  forall k, (k < NE)%nat -> atoms f k = sum n (fun i => coef i * atoms (parts i) k).

Theorem C46_elements : forall m t, In m modes -> initialised m t ->
  (forall c, (c < npc t)%nat -> sameAtoms (solidFormula m c) (nc t) oxideFormula (solToOx t c)) /\
  (forall c, (c < npc t)%nat -> sameAtoms (solidFormula m c) (nlc t) (liquidFormula m) (solToLiq t c)) /\
  (forall j, (j < nlc t)%nat -> sameAtoms (liquidFormula m j) (nc t) oxideFormula (liqToOx t j)) /\
  (forall o, (o < nc t)%nat -> sameAtoms (oxideFormula o) (nlc t) (liquidFormula m) (oxToLiq t o)).
Proof.
  intros m t Hm It. destruct (checked m Hm) as [ce Ch].
  assert (En : nc t = length tbl_bulk) by apply It. assert (El : nlc t = length (mLiq m)) by apply It. assert (Ep : npc t = length (mSol m)) by apply It.
  repeat split; intros i Hi k Hk.
  - rewrite <- solE_atoms by lia. rewrite (cons_solToOx m t It ce Ch i Hi k Hk). apply sum_ext. intros o Ho. now rewrite oxE_atoms by lia.
  - rewrite <- solE_atoms by lia. rewrite (cons_solToLiq m t It ce Ch i Hi k Hk). apply sum_ext. intros o Ho. now rewrite liqE_atoms by lia.
  - rewrite <- liqE_atoms by lia. rewrite (cons_liqToOx m t It ce Ch i Hi k Hk). apply sum_ext. intros o Ho. now rewrite oxE_atoms by lia.
  - rewrite <- oxE_atoms by lia. rewrite (cons_oxToLiq m t It ce Ch i Hi k Hk). apply sum_ext. intros o Ho. now rewrite liqE_atoms by lia.
Qed.

Theorem C46_tables_consistent : forall m t, In m modes -> initialised m t ->
  layout t /\
  (** direct = through the liquid *)
  (forall c o, (c < npc t)%nat -> (o < nc t)%nat ->
     solToOx t c o = sum (nlc t) (fun j => solToLiq t c j * liqToOx t j o)) /\
  (** oxides -> liquid -> oxides is the identity, for all amounts *)
  (forall amounts o, (o < nc t)%nat ->
     sum (nlc t) (fun j => sum (nc t) (fun o' => amounts o' * oxToLiq t o' j) * liqToOx t j o) = amounts o) /\
  (** a mole of a solid weighs as much as its oxides, and as much as its atoms *)
  (forall c, (c < npc t)%nat -> smw t c = sum (nc t) (fun o => solToOx t c o * omw t o)) /\
  (forall c, (c < npc t)%nat -> smw t c = sum NE (fun k => atoms (solidFormula m c) k * atomicWeight k)).
Proof.
  intros m t Hm It. destruct (checked m Hm) as [ce Ch].
  split; [exact (init_layout m t It)|]. split; [|split; [|split]].
  - intros c o Hc Ho. exact (init_agrees m t It ce Ch o Ho c Hc).
  - exact (init_invertible m t It ce Ch).
  - exact (init_weight m t It ce Ch).
  - intros c Hc. rewrite (smw_atoms m t It ce Ch c Hc). apply sum_ext. intros k _. rewrite solE_atoms; [reflexivity|].
    now rewrite <- (in_npc m t It).
Qed.

(** Whole runs on the tables as computed: C45 with no assumption on them. *)
Theorem C46_runs_balanced : forall m t corr phaseTest redox s s', In m modes -> initialised m t ->
  wf t s -> balanced t s -> steps t corr phaseTest redox s s' -> wf t s' /\ balanced t s'.
Proof.
  intros m t corr phaseTest redox s s' Hm It W B S. destruct (checked m Hm) as [ce Ch].
  exact (C45_runs_balanced t corr phaseTest redox (init_layout m t It) (fun o Ho => init_agrees m t It ce Ch o Ho) (init_invertible m t It ce Ch) s s' W B S).
Qed.

(** ** The tables exist (so the theorems above are not about nothing), and only
    one answer of the solver is possible. *)
Section Exists.
Variable m : Mode.
Variable c : list (nat * list Q).
Hypothesis Ch : checkMode cert_bulk c m = true.
Let P := certM nOx cert_bulk.
Let Q := certM nOx c.
Definition theTable : Tab :=
  mkTab (length (mLiq m)) (length (mSol m)) (length tbl_bulk)
    (fun i => nth i (phaseTypes m) false) (naOf (phaseTypes m))
    (fun i => cf nOx Q (nth i (Sm m) [])) (fun i => cf nOx P (nth i (Sm m) []))
    (fun j => cf nOx P (nth j (Lm m) [])) (fun o => cf nOx Q (nth o Om []))
    (fun i => QR (fst (parsed (solidFormula m i)))) (fun o => QR (fst (parsed (oxideFormula o))))
    (fun i => solE m i atNumO / 2) (fun j => liqE m j atNumO / 2) (fun o => String.eqb (oxideFormula o) "Fe2O3").
Lemma theTable_initialised : initialised m theTable.
Proof.
  pose proof Ch as K. unfold checkMode in K. cbv zeta in K. repeat (apply andb_prop in K; destruct K as [K ?]).
  repeat match goal with H : Nat.eqb _ _ = true |- _ => apply Nat.eqb_eq in H end.
  repeat match goal with H : forallb _ _ = true |- _ => rewrite forallb_forall in H end.
  assert (IL : forall j, (j < length (mLiq m))%nat -> In (nth j (Lm m) []) (Lm m)) by (intros; apply nth_In; unfold Lm; now rewrite map_length).
  assert (IS : forall i, (i < length (mSol m))%nat -> In (nth i (Sm m) []) (Sm m)) by (intros; apply nth_In; unfold Sm; now rewrite map_length).
  assert (IO : forall o, (o < length tbl_bulk)%nat -> In (nth o Om []) Om) by (intros; apply nth_In; unfold Om; now rewrite map_length).
  constructor; cbn [nlc npc nc isPhase na solToLiq solToOx liqToOx oxToLiq smw omw o2Sol o2Liq theTable]; auto.
  - intros j Hj. rewrite K. apply (solved_exists nOx Om P (nth j (Lm m) [])). auto.
  - intros j Hj. rewrite K. apply (solved_exists nOx Om P (nth j (Sm m) [])). auto.
  - intros j Hj. match goal with H : length (mLiq m) = nOx |- _ => rewrite H end. apply (solved_exists nOx (Lm m) Q (nth j Om [])). auto.
  - intros j Hj. match goal with H : length (mLiq m) = nOx |- _ => rewrite H end. apply (solved_exists nOx (Lm m) Q (nth j (Sm m) [])). auto.
Qed.
End Exists.
Theorem C46_tables_exist : forall m, In m modes -> exists t, initialised m t.
Proof. intros m Hm. destruct (checked m Hm) as [c Ch]. exists (theTable m c). exact (theTable_initialised m c Ch). Qed.

Theorem C46_tables_unique : forall m t u, In m modes -> initialised m t -> initialised m u ->
  (forall c o, (c < npc t)%nat -> (o < nc t)%nat -> solToOx t c o = solToOx u c o) /\ (forall c j, (c < npc t)%nat -> (j < nlc t)%nat -> solToLiq t c j = solToLiq u c j) /\ (forall j o, (j < nlc t)%nat -> (o < nc t)%nat -> liqToOx t j o = liqToOx u j o) /\ (forall o j, (o < nc t)%nat -> (j < nlc t)%nat -> oxToLiq t o j = oxToLiq u o j).
Proof.
  intros m t u Hm It Iu. destruct (checked m Hm) as [ce Ch].
  assert (E1 : nc u = nc t) by (rewrite (in_nc m t It), (in_nc m u Iu); reflexivity).
  assert (E2 : nlc u = nlc t) by (rewrite (in_nlc m t It), (in_nlc m u Iu); reflexivity).
  assert (E3 : npc u = npc t) by (rewrite (in_npc m t It), (in_npc m u Iu); reflexivity).
  destruct (ch_split m t It ce Ch) as ((En & El) & (RO & RL) & IL & IS & IO & ISL & _).
  split; [|split; [|split]].
  - intros c o Hc Ho. pose proof (in_solToOx m t It c Hc) as A. pose proof (in_solToOx m u Iu c ltac:(lia)) as B. rewrite E1, En in *.
    pose proof (IS _ (in_S m t It c Hc)) as I.
    rewrite (solved_unique _ _ _ _ RO I _ A o Ho), (solved_unique _ _ _ _ RO I _ B o Ho). reflexivity.
  - intros c o Hc Ho. pose proof (in_solToLiq m t It c Hc) as A. pose proof (in_solToLiq m u Iu c ltac:(lia)) as B. rewrite E2, El in *.
    pose proof (ISL _ (in_S m t It c Hc)) as I.
    rewrite (solved_unique _ _ _ _ RL I _ A o Ho), (solved_unique _ _ _ _ RL I _ B o Ho). reflexivity.
  - intros c o Hc Ho. pose proof (in_liqToOx m t It c Hc) as A. pose proof (in_liqToOx m u Iu c ltac:(lia)) as B. 
    pose proof (IL _ (in_L m t It c Hc)) as I. rewrite E1, En in *.
    rewrite (solved_unique _ _ _ _ RO I _ A o Ho), (solved_unique _ _ _ _ RO I _ B o Ho). reflexivity.
  - intros c o Hc Ho. pose proof (in_oxToLiq m t It c Hc) as A. pose proof (in_oxToLiq m u Iu c ltac:(lia)) as B. rewrite E2, El in *.
    rewrite En in Hc. pose proof (IO _ (in_O c Hc)) as I.
    rewrite (solved_unique _ _ _ _ RL I _ A o Ho), (solved_unique _ _ _ _ RL I _ B o Ho). reflexivity.
Qed.
Print Assumptions C46_elements.
Print Assumptions C46_tables_consistent.
Print Assumptions C46_runs_balanced.
Print Assumptions C46_tables_exist.
Print Assumptions C46_tables_unique.

(** Not empty: fayalite in the melts table has two atoms of Fe per mole. *)
Example fayalite_atoms : exists c, (c < length (mSol mode_melts))%nat /\ solidFormula mode_melts c = "Fe2SiO4"%string /\ atoms "Fe2SiO4" 26 = 2 /\ atoms "Fe2SiO4" 14 = 1 /\ atoms "Fe2SiO4" 8 = 4.
Proof.
  destruct (find (fun i => String.eqb (solidFormula mode_melts i) "Fe2SiO4") (seq 0 (length (mSol mode_melts)))) as [c|] eqn:E;
    [|vm_compute in E; discriminate].
  apply find_some in E. destruct E as [I S]. apply in_seq in I. apply String.eqb_eq in S. exists c. split; [lia|]. split; [exact S|].
  assert (V : forall k z, this (getV (elemRow "Fe2SiO4") k) = (z # 1) -> atoms "Fe2SiO4" k = IZR z).
  { intros k z H. unfold atoms, QR. rewrite H. unfold Q2R. cbn. field. }
  repeat split; apply V; vm_compute; reflexivity.
Qed.
