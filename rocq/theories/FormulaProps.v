(** Properties C04-C06: chemical formula strings (sources/melts_support.c, formulaToMwStoich). *)
From Coq Require Import Ascii String List Bool Arith ZArith QArith Qcanon Lia.
From Verif Require Import Str Num Tables ElemTable FormulaModel FormulaSpec FormulaProofs.
Import ListNotations.
Local Open Scope nat_scope.
Local Open Scope list_scope.

(** C04. For every table of distinct element symbols, every reading [atof] of
    decimal texts and every well-formed formula with one level of groups, the
    parser succeeds and adds to each element exactly its total amount, leaving
    all other entries unchanged. *)
Theorem C04_formula_stoichiometry : forall elems atof, NoDup (map fst elems) ->
  forall (l : list item) (g : nat -> Qc), l <> [] -> Forall (wf_item elems) l ->
  exists mw g', formulaToMwStoich elems atof (render l) g = Done mw g' /\
    (forall i s w, 1 <= i -> nth_error elems (i - 1) = Some (s, w) ->
        g' i = (g i + amount atof s l)%Qc) /\
    (forall i, i = 0 \/ length elems < i -> g' i = g i).
Proof.
  intros elems atof ND l g Hne Hw.
  destruct (parse_render elems atof ND l g Hne Hw) as (m & g' & A & B & C).
  exists m, g'. split; [exact A|]. split.
  - intros i s w Hi Hs. apply B. exists w. auto.
  - apply (parse_weight elems atof _ _ _ _ A).
Qed.
Print Assumptions C04_formula_stoichiometry.

(** C05. For every string on which the parser succeeds, the weight returned is
    the sum over elements of (amount added) x (atomic weight). *)
Theorem C05_weight_is_stoich_times_atomic_weights : forall elems atof f g mw g',
  formulaToMwStoich elems atof f g = Done mw g' ->
  mw = fold_right (fun k q => ((g' (S k) - g (S k)) * weight elems (S k) + q)%Qc) (Q2Qc 0)
                  (seq 0 (length elems)) /\
  forall i, i = 0 \/ length elems < i -> g' i = g i.
Proof.
  intros elems atof f g m g' H. destruct (parse_weight elems atof f g m g' H) as [A B].
  split; [|exact B]. rewrite A. unfold wsum. clear.
  induction (seq 0 (length elems)) as [|k l IH]; cbn [fold_right].
  - reflexivity.
  - rewrite <- IH. ring.
Qed.
Print Assumptions C05_weight_is_stoich_times_atomic_weights.

(** C06, true part: among strings without parentheses exactly the well-formed
    formulas are accepted; every other one yields the failure value or stops in
    the 3-byte buffer overflow. *)
Theorem C06_no_parentheses_accepts_only_formulas_partial : forall elems atof f g,
  NoDup (map fst elems) ->
  (forall s, In s (map fst elems) -> match s with c :: _ => is_up c = true | [] => False end) ->
  f <> [] -> forallb (fun c => negb (Ascii.eqb c "(") && negb (Ascii.eqb c ")")) f = true ->
  ((exists mw g', formulaToMwStoich elems atof f g = Done mw g') <->
   (exists es, f = render_els es /\ Forall (wf_el elems) es)).
Proof.
  intros elems atof f g ND Hup Hne Hp. split.
  - intros (m & g' & H). exact (accepted_nopar elems atof f g m g' Hup Hp H).
  - intros (es & -> & Hw).
    assert (E : render_els es = render (map El es)).
    { unfold render. rewrite flat_map_concat_map, map_map. unfold render_els. now rewrite flat_map_concat_map. }
    rewrite E. destruct (parse_render elems atof ND (map El es) g) as (m & g' & A & _).
    + destruct es; [cbn in Hne; congruence|discriminate].
    + rewrite Forall_map. exact Hw.
    + eauto.
Qed.
(** the same as a property of its own (C99) *)
Theorem C99_accepts_only_formulas : forall elems atof f g,
  NoDup (map fst elems) ->
  (forall s, In s (map fst elems) -> match s with c :: _ => is_up c = true | [] => False end) ->
  f <> [] -> forallb (fun c => negb (Ascii.eqb c "(") && negb (Ascii.eqb c ")")) f = true ->
  ((exists mw g', formulaToMwStoich elems atof f g = Done mw g') <->
   (exists es, f = render_els es /\ Forall (wf_el elems) es)).
Proof. exact C06_no_parentheses_accepts_only_formulas_partial. Qed.
Print Assumptions C06_no_parentheses_accepts_only_formulas_partial.

(** the parser always terminates *)
Theorem C06_parser_terminates : forall elems atof f g,
  formulaToMwStoich elems atof f g <> OutOfFuel.
Proof.
  intros elems atof f g. unfold formulaToMwStoich. destruct f as [|c f]; [discriminate|].
  exact (run_not_oof elems atof (S (length (c :: f))) (start g) (c :: f) (Nat.lt_succ_diag_r _)).
Qed.
Print Assumptions C06_parser_terminates.

(** -------- the shipped element table -------- *)
Definition real_elems : list (str * Qc) := map (fun e => (lit (fst e), Q2Qc (snd e))) tbl_elements.
Definition atofQ (s : str) : Qc := match stod s with Some q => q | None => Q2Qc 0 end.
Definition zero_st : nat -> Qc := fun _ => Q2Qc 0.

Fixpoint nodupb (l : list str) : bool :=
  match l with [] => true | x :: l' => negb (existsb (streqb x) l') && nodupb l' end.
Lemma nodupb_ok l : nodupb l = true -> NoDup l.
Proof.
  induction l as [|x l IH]; intro H; [constructor|]. cbn in H. apply andb_true_iff in H as [H1 H2].
  constructor; [|auto]. intro Hin. apply negb_true_iff in H1.
  assert (existsb (streqb x) l = true); [|congruence]. apply existsb_exists. exists x. split; [exact Hin|]. now apply streqb_eq.
Qed.
Example real_elems_distinct : NoDup (map fst real_elems).
Proof. apply nodupb_ok. vm_compute. reflexivity. Qed.
Example real_elems_upper : forall s, In s (map fst real_elems) ->
  match s with c :: _ => is_up c = true | [] => False end.
Proof.
  intros s H.
  assert (F : forallb (fun s => match s with c :: _ => is_up c | [] => false end) (map fst real_elems) = true)
    by (vm_compute; reflexivity).
  rewrite forallb_forall in F. specialize (F s H). destruct s; [discriminate|exact F].
Qed.

(** a group formula: Ca1.6Mg(SiO3)2 *)
Definition ex_formula : list item :=
  [El (lit "Ca", Some (lit "1.6")); El (lit "Mg", None);
   Grp [(lit "Si", None); (lit "O", Some (lit "3"))] (Some (lit "2"))].
Example ex_formula_text : render ex_formula = lit "Ca1.6Mg(SiO3)2".
Proof. reflexivity. Qed.
Example ex_formula_wf : Forall (wf_item real_elems) ex_formula.
Proof.
  assert (In1 : forall s, existsb (streqb s) (map fst real_elems) = true -> In s (map fst real_elems)).
  { intros s H. apply existsb_exists in H as (x & Hx & E). apply streqb_eq in E. now subst. }
  assert (W : forall e : elem, existsb (streqb (fst e)) (map fst real_elems) = true ->
            sym_shape (fst e) = true -> numeral (snd e) = true -> wf_el real_elems e).
  { intros e A B C. split; [now apply In1|]. now split. }
  unfold ex_formula. apply Forall_cons; [apply W; vm_compute; reflexivity|].
  apply Forall_cons; [apply W; vm_compute; reflexivity|].
  apply Forall_cons; [|apply Forall_nil]. split; [|reflexivity].
  apply Forall_cons; [apply W; vm_compute; reflexivity|].
  apply Forall_cons; [apply W; vm_compute; reflexivity|apply Forall_nil].
Qed.
Example ex_formula_oxygen : amount atofQ (lit "O") ex_formula = Q2Qc 6.
Proof. apply Qc_is_canon. vm_compute. reflexivity. Qed.

(** all formulas of the shipped phase and oxide tables parse (a finite check) *)
Definition parses (f : str) : bool :=
  match formulaToMwStoich real_elems atofQ f zero_st with Done _ _ => true | _ => false end.
Definition shipped : list str :=
  filter (fun f => negb (match f with [] => true | _ => false end))
    (map (fun e => lit (snd e)) (tbl_xMeltsSolids ++ tbl_meltsSolids ++ tbl_meltsFluidSolids ++ tbl_pMeltsSolids)
     ++ map lit tbl_bulk).
Example shipped_count : 100 <= length shipped.
Proof. apply Nat.leb_le. vm_compute. reflexivity. Qed.
Theorem C04_shipped_formulas_parse : forall f, In f shipped -> parses f = true.
Proof. apply forallb_forall. vm_compute. reflexivity. Qed.
Print Assumptions C04_shipped_formulas_parse.

(** C06 is false in full. (a) three letters in a row overflow the buffer;
    (b) unbalanced ")" is ignored; (c) an illegal character after a group is
    read as multiplier 0; (d) nested groups lose the outer multiplier. *)
Theorem C06_malformed_rejected_refuted :
  formulaToMwStoich real_elems atofQ (lit "Siii") zero_st = UB /\
  (exists m g, formulaToMwStoich real_elems atofQ (lit "Si)O2") zero_st = Done m g /\ 0 < m)%Qc /\
  (exists m g, formulaToMwStoich real_elems atofQ (lit "Mg(OH)#2") zero_st = Done m g /\ 0 < m)%Qc /\
  (exists m g, formulaToMwStoich real_elems atofQ (lit "(Mg(OH)2)3") zero_st = Done m g /\ 0 < m)%Qc.
Proof.
  assert (W : forall r, match r with Done m g => if Qclt_le_dec 0 m then true else false | _ => false end = true ->
              exists m g, r = Done m g /\ (0 < m)%Qc).
  { intros [g| |m g|] H; try discriminate. exists m, g. split; [reflexivity|].
    destruct (Qclt_le_dec 0 m); [assumption|discriminate]. }
  split; [vm_compute; reflexivity|].
  split; [apply W; vm_compute; reflexivity|].
  split; apply W; vm_compute; reflexivity.
Qed.
Print Assumptions C06_malformed_rejected_refuted.
