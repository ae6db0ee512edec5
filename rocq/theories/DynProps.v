(** C187-C193: what the shared library's queries report besides the thermodynamic properties. *)
From Coq Require Import Reals QArith Qcanon Qreals String Bool Arith ZArith Lia Lra FunctionalExtensionality.
From Verif Require Import MassModel MassSpec MassProofs InitModel InitProofs InitProps InitCert Tables ReportModel QryModel QrySpec QryProps QryTable QryLiquid ElmModel ElmTable DynModel.
From Coq Require Import List. Import ListNotations.
Local Open Scope R_scope.

(** what the caller reads: the grams of oxide o, the molar weight, the density and the mass *)
Definition oxideCell (mem : Mem) (a o : nat) : R := cell mem a (11 + o)%nat.
Definition volumeCell (mem : Mem) (a : nat) : R := cell mem a 3%nat.
Section Q.
Variable t : Tab.
Notation weightCell mem a := (cell mem a (11 + nc t)%nat).
Notation densityCell mem a := (cell mem a (12 + nc t)%nat).
Notation massCell mem a := (cell mem a (13 + nc t)%nat).
Section Read.
Variables (props ox : nat -> R) (w d g : R) (old : Arr).
Lemma read_props q : (q < 11)%nat -> cells t props ox w d g old q = scale q (props q).
Proof. intros H. unfold cells. now rewrite (proj2 (Nat.ltb_lt q 11) H). Qed.
Lemma read_ox o : (o < nc t)%nat -> cells t props ox w d g old (11 + o)%nat = ox o.
Proof. intros H. unfold cells. rewrite (proj2 (Nat.ltb_ge (11 + o) 11)) by lia. rewrite (proj2 (Nat.ltb_lt (11 + o) (11 + nc t))) by lia. f_equal. lia. Qed.
Lemma read_w : cells t props ox w d g old (11 + nc t)%nat = w.
Proof. unfold cells. rewrite (proj2 (Nat.ltb_ge (11 + nc t) 11)) by lia. rewrite (proj2 (Nat.ltb_ge (11 + nc t) (11 + nc t))) by lia. now rewrite Nat.eqb_refl. Qed.
Lemma read_d : cells t props ox w d g old (12 + nc t)%nat = d.
Proof. unfold cells. rewrite (proj2 (Nat.ltb_ge (12 + nc t) 11)) by lia. rewrite (proj2 (Nat.ltb_ge (12 + nc t) (11 + nc t))) by lia.
  rewrite (proj2 (Nat.eqb_neq (12 + nc t) (11 + nc t))) by lia. now rewrite Nat.eqb_refl. Qed.
Lemma read_g : cells t props ox w d g old (13 + nc t)%nat = g.
Proof. unfold cells. rewrite (proj2 (Nat.ltb_ge (13 + nc t) 11)) by lia. rewrite (proj2 (Nat.ltb_ge (13 + nc t) (11 + nc t))) by lia.
  rewrite (proj2 (Nat.eqb_neq (13 + nc t) (11 + nc t))) by lia. rewrite (proj2 (Nat.eqb_neq (13 + nc t) (12 + nc t))) by lia. now rewrite Nat.eqb_refl. Qed.
End Read.
Variable oxToElm : nat -> nat -> R.
Variable liq : Soln.
Variable redo : option (R -> R -> (nat -> R) -> nat -> R).
Notation phase := (dynPhase_ t oxToElm liq redo).
Notation molarQ := (dynMolar_ t liq redo).
Lemma some_cells found T P grams a mem : exists props ox w, phase (Some found) T P grams a mem a = phaseCells t props ox w grams (mem a).
Proof. destruct found as [j [|mw cur|s]]; cbn [dynPhase_]; rewrite store_same; do 3 eexists; reflexivity. Qed.
(** Mass, volume and density belong together: grams, cubic centimetres, kilograms per cubic metre. The mass is that given. *)
Theorem C189_density found T P grams a mem :
  let after := phase (Some found) T P grams a mem in
  massCell after a = sum (nc t) grams
  /\ (volumeCell after a <> 0 -> densityCell after a * volumeCell after a = 1000 * massCell after a).
Proof.
  intros after. destruct (some_cells found T P grams a mem) as (props & ox & w & E). unfold cell, volumeCell, after. rewrite E. unfold phaseCells, cell.
  cbv zeta. rewrite read_g, read_d, E. unfold phaseCells. cbv zeta. rewrite read_props by lia. split; [reflexivity|]. change (scale 3 (props 3%nat)) with (props 3%nat * 10).
  intros N. unfold orZero. destruct (Req_EM_T (props 3%nat) 0) as [Z|Z]; [rewrite Z in N; lra|]. field. exact Z.
Qed.
(** The molar weight times the moles of components is the mass *)
Theorem C189_molar_weight j e T P grams a mem :
  let after := phase (Some (j, e)) T P grams a mem in
  let moles := match e with Liquid => sum (nlc t) (moles t oxToElm redo true liq T P grams) | Pure mw _ => sum (nc t) grams / mw
    | Solution s => sum (sNa s) (moles t oxToElm redo false s T P grams) end in
  moles <> 0 -> weightCell after a * moles = massCell after a.
Proof.
  intros after n N. unfold after, cell in *. destruct e as [|mw cur|s]; cbn [dynPhase_] in *; rewrite store_same; unfold phaseCells; cbv zeta; rewrite read_w, read_g;
    unfold orZero; fold n; destruct (Req_EM_T n 0) as [Z|Z]; try contradiction; field; exact Z.
Qed.
(** ** The molar query *)
Lemma sum_div n f x : sum n (fun k => f k / x) = sum n f / x.
Proof. unfold Rdiv. now rewrite <- sum_scal_r. Qed.
(** the molar weight and the mass are the sum of the oxides; with the density as for a phase of that mass *)
Theorem C190_molar_mass found T P comp a mem :
  let after := molarQ (Some found) T P comp a mem in
  weightCell after a = sum (nc t) (oxideCell after a) /\ massCell after a = weightCell after a
  /\ (volumeCell after a <> 0 -> densityCell after a * volumeCell after a = 1000 * massCell after a).
Proof.
  assert (G : forall props ox, let after := store a (molarCells t props ox (mem a)) mem in
    weightCell after a = sum (nc t) (oxideCell after a) /\ massCell after a = weightCell after a
    /\ (volumeCell after a <> 0 -> densityCell after a * volumeCell after a = 1000 * massCell after a)).
  { intros props ox after. unfold after, oxideCell, volumeCell, cell. rewrite store_same. unfold molarCells. cbv zeta. rewrite read_w, read_d, read_g, read_props by lia.
    split; [apply sum_ext; intros o Ho; now rewrite read_ox by exact Ho|]. split; [reflexivity|]. change (scale 3 (props 3%nat)) with (props 3%nat * 10).
    intros N. unfold orZero. destruct (Req_EM_T (props 3%nat) 0) as [Z|Z]; [rewrite Z in N; lra|]. field. exact Z. }
  destruct found as [j [|mw cur|s]]; cbn [dynMolar_]; apply G.
Qed.
End Q.

(** ** On the tables as computed *)
Section T.
Variables (md : Mode) (t : Tab).
Hypotheses (Hm : In md modes) (It : initialised md t).
Notation weightCell mem a := (cell mem a (11 + nc t)%nat).
Notation massCell mem a := (cell mem a (13 + nc t)%nat).
(** the oxides of a solid weigh what it weighs *)
Lemma smw_oxides c : (c < npc t)%nat -> smw t c = sum (nc t) (fun o => solToOx t c o * omw t o).
Proof. exact (proj1 (proj2 (proj2 (proj2 (C46_tables_consistent md t Hm It)))) c). Qed.
Lemma liquid_oxides grams o : (o < nc t)%nat -> oxGrams t (nlc t) (liqToOx t) (liqMoles t grams) o = grams o.
Proof.
  intros Ho. pose proof (proj1 (proj2 (proj2 (C46_tables_consistent md t Hm It))) (fun o => grams o / omw t o) o Ho) as E.
  pose proof (omw_pos md t o It Ho) as W. unfold oxGrams.
  rewrite (sum_ext _ _ (fun k => sum (nc t) (fun o' => grams o' / omw t o' * oxToLiq t o' k) * liqToOx t k o * omw t o)).
  - rewrite sum_scal_r, E. field. lra.
  - intros k _. unfold liqMoles. rewrite (sum_ext (nc t) (fun k0 => oxToLiq t k0 k * grams k0 / omw t k0) (fun o' => grams o' / omw t o' * oxToLiq t o' k)) by (intros; unfold Rdiv; ring). ring.
Qed.
(** C188: the composition comes back: for every liquid, *)
Theorem C188_liquid oxToElm liq j T P grams a mem o : (o < nc t)%nat ->
  oxideCell (dynPhase_ t oxToElm liq None (Some (j, Liquid)) T P grams a mem) a o = grams o.
Proof. intros Ho. unfold oxideCell, cell. cbn [dynPhase_]. rewrite store_same. unfold phaseCells. cbv zeta. rewrite read_ox by exact Ho. exact (liquid_oxides grams o Ho). Qed.
(** for any amount of a pure phase, *)
Theorem C188_pure oxToElm liq redo j cur T P n a mem o : (o < nc t)%nat -> (j < npc t)%nat -> smw t j <> 0 ->
  oxideCell (dynPhase_ t oxToElm liq redo (Some (j, Pure (smw t j) cur)) T P (fun o => n * (solToOx t j o * omw t o)) a mem) a o = n * (solToOx t j o * omw t o).
Proof.
  intros Ho Hj N. unfold oxideCell, cell. cbn [dynPhase_]. rewrite store_same. unfold phaseCells. cbv zeta. rewrite read_ox by exact Ho.
  rewrite sum_scal, <- (smw_oxides j Hj). field. exact N.
Qed.
(** and for any mixture of the end members of a solution other than hornblende *)
Theorem C188_solution liq redo i s T P n a mem o : (o < nc t)%nat -> (i < npc t)%nat -> isPhase t i = true -> (1 < na t i)%nat -> label md i <> "hornblende"%string ->
  sNa s = na t i -> fromElements (label md i) (na t i) = Some (sElem s) -> (forall c, (c < na t i)%nat -> 0 <= n c) ->
  oxideCell (dynPhase_ t ElmTable.oxToElm liq redo (Some (i, Solution s)) T P (gramsOf t i n) a mem) a o = gramsOf t i n o.
Proof.
  intros Ho Hi Hp Hn Hl Ns Es Pn. unfold oxideCell, cell. cbn [dynPhase_]. rewrite store_same. unfold phaseCells. cbv zeta. rewrite read_ox by exact Ho.
  destruct (C186_amounts_recovered md t i Hm It Hi Hp Hn Hl) as (conv & E & R). rewrite E in Es. injection Es as Es.
  unfold oxGrams. rewrite Ns. transitivity (sum (na t i) (fun k => solToOx t (i + 1 + k) o * n k * omw t o)).
  - apply sum_ext. intros k Hk. now rewrite (R n Pn redo s T P (eq_sym Es) k Hk).
  - unfold gramsOf. rewrite <- sum_scal_r. apply sum_ext. intros; ring.
Qed.
(** The oxides reported add up to the mass reported when the composition comes back *)
Theorem C188_mass oxToElm liq redo found T P grams a mem :
  (forall o, (o < nc t)%nat -> oxideCell (dynPhase_ t oxToElm liq redo (Some found) T P grams a mem) a o = grams o) ->
  sum (nc t) (oxideCell (dynPhase_ t oxToElm liq redo (Some found) T P grams a mem) a) = massCell (dynPhase_ t oxToElm liq redo (Some found) T P grams a mem) a.
Proof.
  intros H. rewrite (proj1 (C189_density t oxToElm liq redo found T P grams a mem)). apply sum_ext. intros o Ho. exact (H o Ho).
Qed.
(** The molar weight of the molar query is the weighted mean of those of the end members of a solid solution *)
Theorem C190_solution liq redo i s T P comp a mem : (i < npc t)%nat -> isPhase t i = true -> sNa s = na t i -> (1 < na t i)%nat ->
  weightCell (dynMolar_ t liq redo (Some (i, Solution s)) T P comp a mem) a = sum (na t i) (fun k => comp k * smw t (i + 1 + k)) / sum (na t i) comp.
Proof.
  intros Hi Hp Ns Hn. unfold cell. cbn [dynMolar_]. rewrite store_same. unfold molarCells. cbv zeta. rewrite read_w, Ns.
  destruct (phase_row md t i It Hi Hp Hn) as (_ & L & F).
  rewrite sum_swap. rewrite <- sum_div. apply sum_ext. intros k Hk.
  destruct (F k Hk) as [_ Lc]. rewrite (smw_oxides (i + 1 + k)%nat Lc). rewrite <- sum_scal, <- sum_div. apply sum_ext. intros; unfold Rdiv; ring.
Qed.
(** and the same composition gives the same molar weight to the phase query *)
Theorem C190_same_weight liq liq' i s T P n a mem mem' : (i < npc t)%nat -> isPhase t i = true -> (1 < na t i)%nat -> label md i <> "hornblende"%string ->
  sNa s = na t i -> fromElements (label md i) (na t i) = Some (sElem s) -> (forall c, (c < na t i)%nat -> 0 <= n c) -> sum (na t i) n <> 0 ->
  weightCell (dynPhase_ t ElmTable.oxToElm liq None (Some (i, Solution s)) T P (gramsOf t i n) a mem) a
  = weightCell (dynMolar_ t liq' None (Some (i, Solution s)) T P n a mem') a.
Proof.
  intros Hi Hp Hn Hl Ns Es Pn N. rewrite (C190_solution liq' None i s T P n a mem' Hi Hp Ns Hn). unfold cell. cbn [dynPhase_]. rewrite store_same. unfold phaseCells. cbv zeta. rewrite read_w.
  destruct (C186_amounts_recovered md t i Hm It Hi Hp Hn Hl) as (conv & E & R). rewrite E in Es. injection Es as Es.
  rewrite Ns. rewrite (sum_ext (na t i) (moles t ElmTable.oxToElm None false s T P (gramsOf t i n)) n) by (intros k Hk; exact (R n Pn None s T P (eq_sym Es) k Hk)).
  unfold orZero. destruct (Req_EM_T (sum (na t i) n) 0); [contradiction|]. f_equal. unfold gramsOf.
  destruct (phase_row md t i It Hi Hp Hn) as (_ & L & F).
  rewrite (sum_ext (nc t) _ (fun o => sum (na t i) (fun c => n c * solToOx t (i + 1 + c) o * omw t o))) by (intros; now rewrite <- sum_scal_r).
  rewrite sum_swap. apply sum_ext. intros k Hk. destruct (F k Hk) as [_ Lc]. rewrite (smw_oxides _ Lc), <- sum_scal. apply sum_ext. intros; ring.
Qed.
End T.
