(** C185, C186: entering the composition of a phase as grams of oxides. *)
From Coq Require Import Reals String List Bool Arith ZArith QArith Qcanon Qreals Lia Lra.
From Verif Require Import MassModel MassSpec InitModel InitProps Tables ElmModel ElmData ElmProps QryModel.
Import List ListNotations.
Local Open Scope R_scope.

(** melts_support.c 288-290: bulkSystem[i].oxToElm[j] = (int) elementsToOxides[i][j] *)
Definition oxToElm (o k : nat) : R := let q := this (getM Om o k) in IZR (Z.quot (Qnum q) (Zpos (Qden q))).
Lemma nth_map_lt A B (f : A -> B) l i d d' : (i < length l)%nat -> nth i (map f l) d = f (nth i l d').
Proof. revert i. induction l; intros [|i] L; cbn in *; try lia; auto. apply IHl; lia. Qed.
Lemma oxToElm_atoms o k : (o < length tbl_bulk)%nat -> (k < NE)%nat -> oxToElm o k = atoms (oxideFormula o) k.
Proof.
  intros Ho Hk. assert (K : forallb (fun f => forallb (fun q => Pos.eqb (Qden (this q)) 1) (elemRow f)) tbl_bulk = true) by (vm_compute; reflexivity).
  unfold oxToElm, atoms, oxideFormula, getM, QR. unfold Om. rewrite (nth_map_lt _ _ elemRow tbl_bulk o [] ""%string Ho).
  rewrite forallb_forall in K. specialize (K (nth o tbl_bulk ""%string) (nth_In _ _ Ho)). rewrite forallb_forall in K.
  assert (L : length (elemRow (nth o tbl_bulk ""%string)) = NE) by (unfold elemRow; now rewrite map_length, seq_length).
  specialize (K (getV (elemRow (nth o tbl_bulk ""%string)) k)). unfold getV in *.
  assert (I : In (nth k (elemRow (nth o tbl_bulk ""%string)) (Q2Qc 0)) (elemRow (nth o tbl_bulk ""%string))) by (apply nth_In; lia).
  specialize (K I). apply Pos.eqb_eq in K. set (q := this (nth k (elemRow (nth o tbl_bulk ""%string)) (Q2Qc 0))) in *. clearbody q. destruct q as [u d]. cbn [Qden Qnum] in *. subst d.
  unfold Q2R. cbn [Qden Qnum]. rewrite Z.quot_1_r. cbn. lra.
Qed.
Lemma omw_pos m t o : initialised m t -> (o < nc t)%nat -> 0 < omw t o.
Proof.
  intros It Ho. rewrite (in_omw m t It o Ho). rewrite (in_nc m t It) in Ho.
  assert (K : forallb (fun f => negb (Qle_bool (this (fst (parsed f))) 0)) tbl_bulk = true) by (vm_compute; reflexivity).
  rewrite forallb_forall in K. specialize (K _ (nth_In _ ""%string Ho)). unfold QR.
  replace 0 with (Q2R 0) by (unfold Q2R; cbn; lra). apply Qlt_Rlt. apply negb_true_iff in K.
  apply Qnot_le_lt. intros L. apply Qle_bool_iff in L. congruence.
Qed.

(** ** The rows of a phase *)
Section Rows.
Notation Row := (string * bool * string)%type.
Definition dflt : Row := (""%string, false, ""%string).
Lemma solutionsOf_nth (l : list Row) i s f : nth_error l i = Some (s, true, f) -> endMembers (skipn (S i) l) <> [] ->
  In (s, endMembers (skipn (S i) l)) (solutionsOf l).
Proof.
  revert i. induction l as [|[[a b] g] l IH]; intros [|i] E N; try discriminate.
  - cbn in E. injection E as -> -> ->. cbn [solutionsOf skipn] in *. destruct (endMembers l); [congruence|]. now left.
  - cbn [nth_error] in E. change (skipn (S (S i)) ((a, b, g) :: l)) with (skipn (S i) l) in *. specialize (IH i E N). cbn [solutionsOf].
    destruct b; [|exact IH]. destruct (endMembers l); [exact IH|now right].
Qed.
Lemma endMembers_length (l : list Row) : components (map (fun e => snd (fst e)) l) = length (endMembers l).
Proof. induction l as [|[[a b] g] l IH]; [reflexivity|]. cbn. destruct b; [reflexivity|]. cbn. now rewrite IH. Qed.
Lemma endMembers_nth (l : list Row) c : (c < length (endMembers l))%nat -> nth c (endMembers l) ""%string = snd (nth c l dflt) /\ (c < length l)%nat.
Proof.
  revert c. induction l as [|[[a b] g] l IH]; intros c L; [cbn in L; lia|]. cbn in L. destruct b; [cbn in L; lia|]. cbn in L.
  destruct c as [|c]; [split; [reflexivity|cbn; lia]|]. cbn. destruct (IH c ltac:(lia)). split; [assumption|lia].
Qed.
End Rows.
Lemma nth_skipn A (l : list A) k c d : nth c (skipn k l) d = nth (k + c) l d.
Proof. revert k. induction l; intros [|k]; cbn; auto. destruct c; auto. Qed.
Lemma skipn_map A B (f : A -> B) l k : skipn k (map f l) = map f (skipn k l).
Proof. revert k. induction l; intros [|k]; cbn; auto. Qed.
Lemma skipn_len A (l : list A) k : length (skipn k l) = (length l - k)%nat.
Proof. revert k. induction l; intros [|k]; cbn; auto. Qed.

Definition label (m : Mode) (i : nat) : string := fst (fst (nth i (mSol m) dflt)).
Definition formulas (m : Mode) (i : nat) : list string := endMembers (skipn (S i) (mSol m)).
Lemma phase_row m t i : initialised m t -> (i < npc t)%nat -> isPhase t i = true -> (1 < na t i)%nat ->
  In (label m i, formulas m i) (solutionsOf (mSol m)) /\ length (formulas m i) = na t i
  /\ forall c, (c < na t i)%nat -> nth c (formulas m i) ""%string = solidFormula m (i + 1 + c) /\ (i + 1 + c < npc t)%nat.
Proof.
  intros It Hi Hp Hn. rewrite (in_na m t It i Hi Hp) in *. rewrite (in_type m t It i Hi) in Hp. rewrite (in_npc m t It) in *.
  unfold naOf, phaseTypes in *. rewrite skipn_map, endMembers_length in *. fold (formulas m i) in *.
  assert (Hl : (1 < length (formulas m i))%nat) by lia.
  destruct (nth_error (mSol m) i) as [[[s b] f]|] eqn:E; [|apply nth_error_None in E; lia].
  pose proof (nth_error_nth _ _ dflt E) as E'.
  rewrite (nth_map_lt _ _ _ (mSol m) i false dflt Hi), E' in Hp. cbn in Hp. subst b.
  split; [|split; [lia|]].
  - unfold label. rewrite E'. cbn [fst]. apply (solutionsOf_nth _ _ _ _ E). unfold formulas in Hl. intros Z. unfold formulas in *. rewrite Z in Hl. cbn in Hl. lia.
  - intros c Hc. replace (Nat.max (length (formulas m i)) 1) with (length (formulas m i)) in Hc by lia. unfold formulas in *.
    destruct (endMembers_nth _ c Hc) as [A B]. rewrite A, nth_skipn. unfold solidFormula. rewrite skipn_len in B.
    replace (i + 1 + c)%nat with (S i + c)%nat by lia. split; [reflexivity|lia].
Qed.

(** ** C185, C186 *)

(** grams of oxides in n[0] moles of the first end member of phase i, n[1] of the second, ... *)
Definition gramsOf (t : Tab) (i : nat) (n : nat -> R) (o : nat) : R := sum (na t i) (fun c => n c * solToOx t (i + 1 + c) o) * omw t o.

Lemma sum_swap2 a b (f : nat -> nat -> R) : sum a (fun i => sum b (f i)) = sum b (fun j => sum a (fun i => f i j)).
Proof. induction a; cbn [sum]; [induction b; cbn [sum]; [reflexivity|rewrite <- IHb; ring]|].
  rewrite IHa. clear IHa. induction b; cbn [sum]; [ring|]. rewrite <- IHb. ring. Qed.
Lemma sum_mulL n a f : sum n (fun i => a * f i) = a * sum n f.
Proof. induction n; cbn [sum]; [ring|]. rewrite IHn. ring. Qed.
Lemma elements_of_grams m t i n z : In m modes -> initialised m t -> (i < npc t)%nat -> isPhase t i = true -> (1 < na t i)%nat -> (z < NE)%nat ->
  elements t oxToElm (gramsOf t i n) z = atomsIn (formulas m i) n z.
Proof.
  intros Hm It Hi Hp Hn Hz. destruct (phase_row m t i It Hi Hp Hn) as (_ & L & F).
  unfold elements, atomsIn. rewrite L.
  transitivity (sum (nc t) (fun o => sum (na t i) (fun c => n c * (solToOx t (i + 1 + c) o * atoms (oxideFormula o) z)))).
  - apply sum_same. intros o Ho. unfold gramsOf. rewrite oxToElm_atoms by (rewrite <- ?(in_nc m t It); assumption).
    pose proof (omw_pos m t o It Ho). replace (sum (na t i) (fun c => n c * solToOx t (i + 1 + c) o) * omw t o / omw t o) with (sum (na t i) (fun c => n c * solToOx t (i + 1 + c) o)) by (field; lra).
    rewrite Rmult_comm, <- sum_mulL. apply sum_same. intros; ring.
  - rewrite sum_swap2. apply sum_same. intros c Hc. destruct (F c Hc) as [Fc Lc]. rewrite Fc.
    rewrite (proj1 (C46_elements m t Hm It) (i + 1 + c)%nat Lc z Hz). rewrite sum_mulL. reflexivity.
Qed.
(** a conversion looks at the elements of the periodic table only *)
Lemma conv_ext l n conv e e' : fromElements l n = Some conv -> (forall z, (z < NE)%nat -> e z = e' z) -> forall i, conv e i = conv e' i.
Proof.
  intros E X i. assert (L : (30 <= NE)%nat) by (vm_compute; repeat constructor).
  assert (X' : forall z, (z <= 28)%nat -> e z = e' z) by (intros; apply X; lia). clear X L.
  unfold fromElements in E. cbv zeta in E.
  repeat match type of E with context [if ?b then _ else _] => destruct b end; try discriminate; injection E as <-;
    unfold pyrElem, pyrSplit, pyrFe3, olv, grn, mel, cum, aph, hrn, bio, fld, nph, kal, leu, spn, msg, rhm, oox, flu, alloy, oxideCat, oxideChg;
    rewrite !X' by lia; reflexivity.
Qed.
Lemma solutions_all_recover : Forall (fun s => fst s = "hornblende"%string \/ recovers s) solutions.
Proof.
  unfold solutions.
  apply Forall_cons; [right; exact rec_olivine|].
  apply Forall_cons; [right; exact rec_garnet|].
  apply Forall_cons; [right; exact rec_melilite|].
  apply Forall_cons; [right; exact rec_orthopyroxene|].
  apply Forall_cons; [right; exact rec_clinopyroxene|].
  apply Forall_cons; [right; exact rec_cummingtonite|].
  apply Forall_cons; [right; exact rec_amphibole|].
  apply Forall_cons; [left; reflexivity|].
  apply Forall_cons; [right; exact rec_biotite|].
  apply Forall_cons; [right; exact rec_feldspar|].
  apply Forall_cons; [right; exact rec_nepheline|].
  apply Forall_cons; [right; exact rec_kalsilite|].
  apply Forall_cons; [right; exact rec_leucite|].
  apply Forall_cons; [right; exact rec_spinel|].
  apply Forall_cons; [right; exact rec_rhm_oxide5|].
  apply Forall_cons; [right; exact rec_ortho_oxide|].
  apply Forall_cons; [right; exact rec_fluid|].
  apply Forall_cons; [right; exact rec_alloy_solid|].
  apply Forall_cons; [right; exact rec_alloy_liquid|].
  apply Forall_cons; [right; exact rec_rhm_oxide|].
  apply Forall_nil.
Qed.
Lemma solutions_recover s : In s solutions -> fst s <> "hornblende"%string -> recovers s.
Proof. intros I N. destruct (proj1 (Forall_forall _ _) solutions_all_recover s I) as [E|E]; [contradiction|exact E]. Qed.

(** C186: the query sees exactly the amounts of end members whose oxides were entered, for every solution but hornblende *)
Theorem C186_amounts_recovered : forall m t i, In m modes -> initialised m t ->
  (i < npc t)%nat -> isPhase t i = true -> (1 < na t i)%nat -> label m i <> "hornblende"%string ->
  exists conv, fromElements (label m i) (na t i) = Some conv /\
  forall n, (forall c, (c < na t i)%nat -> 0 <= n c) ->
  forall redo s T P, sElem s = conv ->
  forall c, (c < na t i)%nat -> moles t oxToElm redo false s T P (gramsOf t i n) c = n c.
Proof.
  intros m t i Hm It Hi Hp Hn Hl. destruct (phase_row m t i It Hi Hp Hn) as (I & L & F).
  destruct (solutions_recover _ (solutions_all m Hm _ I) Hl) as (conv & E & R). cbn [fst snd] in *. rewrite L in *.
  exists conv. split; [exact E|]. intros n Pn redo s T P Es c Hc. unfold moles. rewrite Es.
  rewrite (conv_ext _ _ conv _ (atomsIn (formulas m i) n) E); [now apply R|].
  intros z Hz. exact (elements_of_grams m t i n z Hm It Hi Hp Hn Hz).
Qed.
(** Every solution of the tables has such a conversion, hornblende too *)
Theorem C186_all_have_one : forall m t i, In m modes -> initialised m t -> (i < npc t)%nat -> isPhase t i = true -> (1 < na t i)%nat ->
  exists conv, fromElements (label m i) (na t i) = Some conv.
Proof.
  intros m t i Hm It Hi Hp Hn. destruct (phase_row m t i It Hi Hp Hn) as (I & L & F). pose proof (solutions_all m Hm _ I) as K. rewrite <- L.
  set (s := (label m i, formulas m i)) in *. change (label m i) with (fst s). change (formulas m i) with (snd s). clearbody s. clear - K.
  unfold solutions in K. cbn [In] in K. repeat (destruct K as [K|K]; [subst s; eexists; reflexivity|]). destruct K.
Qed.

(** C185: false for hornblende. Four moles of pargasite are read for each mole of pargasite and of magnesiohastingsite. *)
Lemma hornblende_at : forall m, In m modes -> exists i, (i < length (mSol m))%nat /\ label m i = "hornblende"%string /\ nth i (phaseTypes m) false = true
  /\ formulas m i = ["NaCa2Mg4AlAl2Si6O22(OH)2"%string; "NaCa2Fe4AlAl2Si6O22(OH)2"%string; "NaCa2Mg4FeAl2Si6O22(OH)2"%string].
Proof.
  assert (K : forallb (fun m => existsb (fun i => Nat.ltb i (length (mSol m)) && String.eqb (label m i) "hornblende" && nth i (phaseTypes m) false
    && sameSol (""%string, formulas m i) (""%string, ["NaCa2Mg4AlAl2Si6O22(OH)2"%string; "NaCa2Fe4AlAl2Si6O22(OH)2"%string; "NaCa2Mg4FeAl2Si6O22(OH)2"%string])) (seq 0 200)) modes = true)
    by (vm_compute; reflexivity).
  intros m Hm. rewrite forallb_forall in K. specialize (K m Hm). apply existsb_exists in K. destruct K as (i & _ & K).
  apply andb_prop in K. destruct K as [K K4]. apply andb_prop in K. destruct K as [K K3]. apply andb_prop in K. destruct K as [K1 K2].
  exists i. apply Nat.ltb_lt in K1. apply String.eqb_eq in K2. apply sameSol_eq in K4. injection K4 as K4. auto.
Qed.
Theorem C185_hornblende : forall m t, In m modes -> initialised m t ->
  exists i, (i < npc t)%nat /\ isPhase t i = true /\ na t i = 3%nat /\ label m i = "hornblende"%string
  /\ solidFormula m (i + 1) = "NaCa2Mg4AlAl2Si6O22(OH)2"%string
  /\ fromElements (label m i) (na t i) = Some hrn
  /\ forall n redo s T P, sElem s = hrn -> moles t oxToElm redo false s T P (gramsOf t i n) 0%nat = 4 * (n 0%nat + n 2%nat).
Proof.
  intros m t Hm It. destruct (hornblende_at m Hm) as (i & Li & Lb & Ty & Fo).
  assert (Hi : (i < npc t)%nat) by (rewrite (in_npc m t It); exact Li).
  assert (Hp : isPhase t i = true) by (rewrite (in_type m t It i Hi); exact Ty).
  assert (Hn : na t i = 3%nat).
  { rewrite (in_na m t It i Hi Hp). unfold naOf, phaseTypes. rewrite skipn_map, endMembers_length. fold (formulas m i). rewrite Fo. reflexivity. }
  destruct (phase_row m t i It Hi Hp ltac:(lia)) as (I & L & F).
  exists i. split; [exact Hi|]. split; [exact Hp|]. split; [exact Hn|]. split; [exact Lb|].
  split. { destruct (F 0%nat ltac:(lia)) as [F0 _]. rewrite Fo in F0. cbn in F0. rewrite F0. f_equal. lia. }
  split; [rewrite Lb; reflexivity|]. intros n redo s T P Es. unfold moles. rewrite Es.
  unfold hrn. cbv zeta. repeat match goal with |- context [let '(_, _) := ?x in _] => destruct x end. unfold listed. cbn [nth].
  rewrite (elements_of_grams m t i n 12 Hm It Hi Hp ltac:(lia) ltac:(vm_compute; repeat constructor)). rewrite Fo.
  pose proof (atomsIn_val ("hornblende"%string, ["NaCa2Mg4AlAl2Si6O22(OH)2"%string; "NaCa2Fe4AlAl2Si6O22(OH)2"%string; "NaCa2Mg4FeAl2Si6O22(OH)2"%string]) n 12 (in_sol ("hornblende"%string, ["NaCa2Mg4AlAl2Si6O22(OH)2"%string; "NaCa2Fe4AlAl2Si6O22(OH)2"%string; "NaCa2Mg4FeAl2Si6O22(OH)2"%string]) eq_refl) (proj1 (Nat.ltb_lt 12 30) eq_refl)) as V.
  cbn [snd length sum nth] in V. cbn [length].
  repeat match type of V with context [look (atomRow ?f) ?w] => let q := eval vm_compute in (look (atomRow f) w) in change (look (atomRow f) w) with q in V end.
  rewrite V. unfold Q2R. cbn [Qnum Qden]. lra.
Qed.
Theorem C185_refuted : exists m t i n s c, In m modes /\ initialised m t /\ (i < npc t)%nat /\ isPhase t i = true /\ (1 < na t i)%nat
  /\ (forall c, (c < na t i)%nat -> 0 <= n c) /\ fromElements (label m i) (na t i) = Some (sElem s)
  /\ (c < na t i)%nat /\ forall redo T P, moles t oxToElm redo false s T P (gramsOf t i n) c <> n c.
Proof.
  destruct (C46_tables_exist mode_melts ltac:(right; left; reflexivity)) as [t It].
  assert (Hm : In mode_melts modes) by (right; left; reflexivity).
  destruct (C185_hornblende mode_melts t Hm It) as (i & Hi & Hp & Hn & Hl & _ & E & V).
  exists mode_melts, t, i, (fun c => match c with 0%nat => 1 | _ => 0 end), (mkSoln 3 hrn (fun m => m) (fun _ _ _ _ => 0) (fun _ _ _ _ => 0) (fun _ _ _ _ => 0) (fun _ _ _ _ => 0)), 0%nat.
  split; [exact Hm|]. split; [exact It|]. split; [exact Hi|]. split; [exact Hp|]. split; [lia|].
  split; [intros [|c] _; lra|]. split; [rewrite E; reflexivity|]. split; [lia|].
  intros redo T P. rewrite V by reflexivity. lra.
Qed.
(** a case of C186: rhyolite-MELTS feldspar *)
Theorem C186_case : exists t i, initialised mode_meltsFluid t /\ (i < npc t)%nat /\ isPhase t i = true /\ na t i = 3%nat /\ label mode_meltsFluid i = "feldspar"%string
  /\ solidFormula mode_meltsFluid (i + 1) = "NaAlSi3O8"%string.
Proof.
  assert (Hm : In mode_meltsFluid modes) by (right; right; left; reflexivity).
  destruct (C46_tables_exist _ Hm) as [t It].
  assert (K : existsb (fun i => Nat.ltb i (length (mSol mode_meltsFluid)) && String.eqb (label mode_meltsFluid i) "feldspar" && nth i (phaseTypes mode_meltsFluid) false
    && Nat.eqb (naOf (phaseTypes mode_meltsFluid) i) 3 && String.eqb (solidFormula mode_meltsFluid (i + 1)) "NaAlSi3O8") (seq 0 200) = true) by (vm_compute; reflexivity).
  apply existsb_exists in K. destruct K as (i & _ & K).
  apply andb_prop in K. destruct K as [K K5]. apply andb_prop in K. destruct K as [K K4]. apply andb_prop in K. destruct K as [K K3]. apply andb_prop in K. destruct K as [K1 K2].
  apply Nat.ltb_lt in K1. apply String.eqb_eq in K2. apply Nat.eqb_eq in K4. apply String.eqb_eq in K5.
  assert (Hi : (i < npc t)%nat) by (rewrite (in_npc _ t It); exact K1).
  assert (Hp : isPhase t i = true) by (rewrite (in_type _ t It i Hi); exact K3).
  exists t, i. split; [exact It|]. split; [exact Hi|]. split; [exact Hp|]. split; [rewrite (in_na _ t It i Hi Hp); exact K4|]. split; [exact K2|exact K5].
Qed.
