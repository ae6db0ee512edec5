(** Which lines of a saved assimilant are read back (MeltsFileModel.v: src/melts_interface.cpp 1038-1047 writes one line per
    row of the table of solids, 1293-1307 reads a line by the first row that carries its label). *)
From Coq Require Import Ascii String List Bool Arith ZArith QArith Qcanon Lia.
From Verif Require Import Str Num Tables MeltsFileModel MeltsFileSpec MeltsFileProofs MeltsFileProps.
Import ListNotations.
Local Open Scope nat_scope.
Local Open Scope list_scope.

Definition labelOf (sol : list solid) (j : nat) : str := fst (nth j sol ([], false)).
(** a row whose label belongs to an earlier row as well, or has a blank or a capital letter *)
Definition unreadable (sol : list solid) (j : nat) : Prop :=
  (exists i, i < j /\ labelOf sol i = labelOf sol j) \/ existsb (Ascii.eqb space) (labelOf sol j) = true \/ existsb upperch (labelOf sol j) = true.

Lemma solid_index_first : forall sol l b i ph, solid_index sol l b = Some (i, ph) ->
  b <= i /\ i - b < length sol /\ labelOf sol (i - b) = l /\ forall k, k < i - b -> labelOf sol k <> l.
Proof.
  induction sol as [|[x p] sol IH]; intros l b i ph H; [discriminate|]. cbn [solid_index] in H. destruct (streqb x l) eqn:E.
  - injection H as <- <-. apply streqb_eq in E. rewrite Nat.sub_diag. cbn. repeat split; [lia|lia|exact E|]. intros k Hk. lia.
  - apply IH in H. destruct H as (A & B & C & D). assert (W : i - b = S (i - S b)) by lia. rewrite W. cbn [length]. repeat split; [lia|lia|exact C|].
    intros [|k] Hk; [cbn; intros Q; subst x; rewrite streqb_refl in E; discriminate|]. cbn. apply D. lia.
Qed.
Lemma words_chars (ok : ascii -> bool) : forall s cur, forallb ok cur = true -> forallb (fun c => ok c || Ascii.eqb c space) s = true ->
  forall w, In w (get_words cur s) -> forallb ok w = true.
Proof.
  induction s as [|c s IH]; intros cur Hc Hs w Hw; [destruct Hw|]. cbn [get_words] in Hw. cbn [forallb] in Hs. apply andb_true_iff in Hs as [H1 H2].
  destruct (Ascii.eqb c space) eqn:E.
  - destruct Hw as [<-|Hw]; [|apply (IH []); auto]. apply forallb_forall. intros x Hx. apply in_rev in Hx. rewrite forallb_forall in Hc. now apply Hc.
  - apply (IH (c :: cur)); [|exact H2|exact Hw]. cbn [forallb]. rewrite orb_false_r in H1. now rewrite H1.
Qed.
Lemma word_no_space s w : In w (get_words [] s) -> existsb (Ascii.eqb space) w = false.
Proof.
  intros H. pose proof (words_chars (fun c => negb (Ascii.eqb c space)) s [] eq_refl) as K.
  assert (A : forallb (fun c => negb (Ascii.eqb c space) || Ascii.eqb c space) s = true) by (apply forallb_forall; intros c _; destruct (Ascii.eqb c space); reflexivity).
  specialize (K A w H). clear -K. induction w as [|c w IH]; [reflexivity|]. cbn [forallb existsb] in *. apply andb_true_iff in K as [K1 K2].
  rewrite Ascii.eqb_sym. apply negb_true_iff in K1. rewrite K1. now apply IH.
Qed.
Lemma word_no_upper s w : In w (get_words [] (lower s)) -> existsb upperch w = false.
Proof.
  intros H. pose proof (words_chars (fun c => negb (upperch c)) (lower s) [] eq_refl) as K.
  assert (A : forallb (fun c => negb (upperch c) || Ascii.eqb c space) (lower s) = true).
  { pose proof (lower_no_upper s) as L. clear -L. induction (lower s) as [|c l IH]; [reflexivity|]. cbn [existsb forallb] in *.
    apply orb_false_iff in L as [L1 L2]. rewrite L1. cbn. now apply IH. }
  specialize (K A w H). clear -K. induction w as [|c w IH]; [reflexivity|]. cbn [forallb existsb] in *. apply andb_true_iff in K as [K1 K2].
  apply negb_true_iff in K1. rewrite K1. now apply IH.
Qed.
(** no line sets such a row *)
Lemma line_skips sol j s ws w1 i ph : unreadable sol j -> get_words [] (lower s) = ws -> In w1 ws -> solid_index sol w1 0 = Some (i, ph) -> i <> j.
Proof.
  intros U Hw Hi H E. subst i ws. destruct (solid_index_first sol w1 0 j ph H) as (_ & _ & L & F). rewrite Nat.sub_0_r in *.
  destruct U as [(i & Li & Ei)|[U|U]].
  - apply (F i Li). congruence.
  - rewrite L in U. rewrite (word_no_space _ _ Hi) in U. discriminate.
  - rewrite L in U. rewrite (word_no_upper _ _ Hi) in U. discriminate.
Qed.
Lemma line_row sol j d raw d' : j < length sol -> unreadable sol j -> load_line sol d raw = Some d' -> nth j (l_av d) zero = zero -> nth j (l_av d') zero = zero.
Proof.
  intros Hj U H Z. unfold load_line in H. destruct (classify raw); try (crush_some; exact Z).
  - destruct (find_label (map lower bulk_labels) 0 (lower raw)) as [[i l]|]; crush_some; exact Z.
  - destruct (substr 10 (lower raw)) as [l|]; [|discriminate]. cbn [obind] in H. destruct (phase_index sol l 0); crush_some; exact Z.
  - unfold assim_line in H. rewrite find_label_upper in H.
    destruct (containsb (lit "assimilant: temperature") (lower raw)); [crush_some; exact Z|].
    destruct (containsb (lit "assimilant: mass") (lower raw)); [crush_some; exact Z|].
    destruct (containsb (lit "assimilant: liquid mass") (lower raw)).
    { crush_some. cbn [set_av l_av]. rewrite upd_nth_other by lia. exact Z. }
    destruct (containsb (lit "units") (lower raw)); [crush_some; exact Z|].
    destruct (containsb (lit "increments") (lower raw)); [crush_some; exact Z|].
    destruct (get_words [] (lower raw)) as [|w0 [|w1 ws]] eqn:W; [crush_some; exact Z|crush_some; exact Z|].
    destruct (solid_index sol w1 0) as [[i ph]|] eqn:E; [|crush_some; exact Z].
    assert (Ne : i <> j) by (apply (line_skips sol j raw _ w1 i ph U W); [right; left; reflexivity|exact E]).
    destruct (num_at (length w1 + 13) (lower raw)); [|discriminate]. cbn [obind] in H.
    destruct ph; crush_some; cbn [set_av l_av]; rewrite upd_nth_other by exact Ne; exact Z.
Qed.
Lemma lines_row sol j : j < length sol -> unreadable sol j -> forall ls d d', load_lines sol d ls = Some d' -> nth j (l_av d) zero = zero -> nth j (l_av d') zero = zero.
Proof.
  intros Hj U. induction ls as [|l ls IH]; intros d d' E Z; cbn [load_lines] in E; [now injection E as <-|].
  destruct (load_line sol d l) as [d1|] eqn:F; [|discriminate]. cbn [obind] in E. apply (IH d1); [exact E|]. now apply (line_row sol j d l).
Qed.
(** C224 is false of every such row: no file whatever restores it *)
Theorem C224_never : forall sol mw s0 text s' av' j, load sol mw s0 text = Some (s', av') -> j < length sol -> unreadable sol j -> nth j av' zero = zero.
Proof.
  intros sol mw s0 text s' av' j H Hj U. unfold load in H.
  match type of H with obind (load_lines sol ?d _) _ = _ => set (d0 := d) in H end.
  destruct (load_lines sol d0 (getlines text)) as [d'|] eqn:E; [|discriminate]. cbn [obind] in H. injection H as _ <-.
  apply (lines_row sol j Hj U (getlines text) d0 d' E). unfold d0. cbn [l_av]. apply nth_repeat.
Qed.
(** a row that is not of this kind is read from its line (the partial truth): the first number after its label *)
Theorem C224_partial : forall sol d raw j ph w0 ws q, nth_error sol j = Some (labelOf sol j, ph) -> (forall i, i < j -> labelOf sol i <> labelOf sol j) ->
  forallb (fun k => negb (containsb (lit k) (lower raw))) ["assimilant: temperature"; "assimilant: mass"; "assimilant: liquid mass"; "units"; "increments"]%string = true ->
  get_words [] (lower raw) = w0 :: labelOf sol j :: ws -> num_at (length (labelOf sol j) + 13) (lower raw) = Some q -> j < length (l_av d) ->
  exists d', assim_line sol d (lower raw) = Some d' /\ nth j (l_av d') zero = (if ph then q * assimMass (l_s d) / Q2Qc 100 else q)%Qc /\
    (forall i, i <> j -> nth i (l_av d') zero = nth i (l_av d) zero) /\ l_s d' = l_s d.
Proof.
  intros sol d raw j ph w0 ws q N F K W Q L. cbn [forallb] in K. repeat (apply andb_true_iff in K as [? K]).
  repeat match goal with H : negb _ = true |- _ => apply negb_true_iff in H end. unfold assim_line.
  repeat match goal with H : containsb _ _ = false |- _ => rewrite H; clear H end. rewrite W.
  assert (I : forall sol b j ph, nth_error sol j = Some (labelOf sol j, ph) -> (forall i, i < j -> labelOf sol i <> labelOf sol j) -> solid_index sol (labelOf sol j) b = Some (b + j, ph)).
  { clear. induction sol as [|[x p] sol IH]; intros b j ph N F; [destruct j; discriminate|]. destruct j as [|j].
    - cbn in *. injection N as <-. rewrite streqb_refl. now rewrite Nat.add_0_r.
    - cbn [solid_index]. destruct (streqb x (labelOf ((x, p) :: sol) (S j))) eqn:E.
      + exfalso. apply (F 0); [lia|]. apply streqb_eq in E. exact E.
      + change (labelOf ((x, p) :: sol) (S j)) with (labelOf sol j). rewrite (IH (S b) j ph); [f_equal; f_equal; lia|exact N|].
        intros i Hi. apply (F (S i)). lia. }
  rewrite (I sol 0 j ph N F). cbn [plus]. rewrite Q. cbn [obind].
  assert (U : forall v, nth j (upd (l_av d) j v) zero = v).
  { intros v. revert L. generalize (l_av d). induction j as [|j IHj] in |- *; intros [|a l] L; cbn in L |- *; try lia; [reflexivity|].
    clear -L. revert l L. induction j as [|j IHj]; intros [|a l] L; cbn in L |- *; try lia; [reflexivity|]. apply IHj. lia. }
  destruct ph; eexists; (split; [reflexivity|]); cbn [set_av l_av l_s]; (split; [apply U|]); split; try reflexivity; intros i Hi; apply upd_nth_other; congruence.
Qed.

(** ---- the tables shipped ---- *)
Definition unreadableb (sol : list solid) (j : nat) : bool :=
  existsb (fun i => streqb (labelOf sol i) (labelOf sol j)) (seq 0 j) || existsb (Ascii.eqb space) (labelOf sol j) || existsb upperch (labelOf sol j).
Lemma unreadableb_ok sol j : unreadableb sol j = true -> unreadable sol j.
Proof.
  unfold unreadableb, unreadable. intros H. apply orb_true_iff in H as [H|H]; [apply orb_true_iff in H as [H|H]|].
  - left. apply existsb_exists in H as (i & I & E). apply in_seq in I. apply streqb_eq in E. exists i. split; [lia|exact E].
  - right; left; exact H.
  - right; right; exact H.
Qed.
(** with solids as in the MELTS and the MELTS+fluid tables: the mole percents of clinopyroxene's diopside, hedenbergite and five others, of
    nepheline's four, of orthoamphibole's, of the metals, ... come back from no file whatever *)
Definition lostRows : list nat := [7; 27; 28; 29; 30; 31; 32; 33; 37; 40; 41; 64; 65; 66; 67; 69; 80; 87].
Theorem C224_shipped : forall tbl, In tbl [tbl_meltsSolids; tbl_meltsFluidSolids] -> forall j, In j lostRows ->
  forall mw s0 text s' av', load (of_table tbl) mw s0 text = Some (s', av') -> nth j av' zero = zero.
Proof.
  intros tbl Ht j Hj mw s0 text s' av' L.
  assert (K : forallb (fun j => (j <? length (of_table tbl)) && unreadableb (of_table tbl) j) lostRows = true).
  { cbn [In] in Ht. destruct Ht as [E|[E|[]]]; rewrite <- E; vm_compute; reflexivity. }
  rewrite forallb_forall in K. specialize (K j Hj). apply andb_true_iff in K as [K1 K2]. apply Nat.ltb_lt in K1.
  apply (C224_never (of_table tbl) mw s0 text s' av' j L K1). apply unreadableb_ok. exact K2.
Qed.
(** and a row that is first with its label may be overwritten by the line of a later one: 10 g of olivine, 30 mole percent fayalite, comes
    back as 10 g of olivine with no fayalite (the pure phase fayalite's line says 0.00); 10 g of pure corundum come back as none *)
Definition one_assim : settings :=
  set_assim (mkS (lit "run") (repeat (Q2Qc (10 # 601)) 19) (Q2Qc (147315 # 100)) (Q2Qc 500) (Q2Qc (-3)) (Q2Qc (-10)) zero zero zero 3%Z (Q2Qc (3 # 10))
      (repeat true (nphases ex_sol)) true false true true false false false (Q2Qc 1000) zero zero) (Q2Qc 1100) (Q2Qc 10) zero.
Fixpoint putAt (l : list (nat * Qc)) (av : list Qc) : list Qc := match l with [] => av | (j, q) :: r => putAt r (upd av j q) end.
Definition olivine_av : list Qc := putAt [(0, Q2Qc 10); (2, Q2Qc 30); (6, Q2Qc 70)] (repeat zero (length ex_sol + length bulk_labels + 1)).
Definition corundumRow : nat := match solid_index ex_sol (lit "corundum") 0 with Some (i, _) => i | None => 0 end.
Definition corundum_av : list Qc := putAt [(corundumRow, Q2Qc 10)] (repeat zero (length ex_sol + length bulk_labels + 1)).
Definition back (av : list Qc) (j : nat) : option Q := option_map (fun r => this (nth j (snd r) zero)) (load ex_sol ex_mw one_assim (save_text ex_sol ex_mw (lit "run") one_assim av)).
Theorem C224_refuted :
  (back olivine_av 0 = Some (10 # 1)%Q /\ back olivine_av 6 = Some (70 # 1)%Q /\ back olivine_av 2 = Some (0 # 1)%Q) /\
  nth_error ex_sol corundumRow = Some (lit "corundum", true) /\ nth corundumRow corundum_av zero = Q2Qc 10 /\ back corundum_av corundumRow = Some (0 # 1)%Q.
Proof. vm_compute. repeat split. Qed.
(** a concrete line for the partial theorem: garnet is row 9 and the first of that label *)
Example C224_case : forall d, 9 < length (l_av d) -> exists d', assim_line ex_sol d (lower (lit "Assimilant: garnet 25.00")) = Some d' /\
  nth 9 (l_av d') zero = (Q2Qc 25 * assimMass (l_s d) / Q2Qc 100)%Qc.
Proof.
  intros d L.
  assert (G : labelOf ex_sol 9 = lit "garnet") by (vm_compute; reflexivity).
  assert (Fst : forall i, i < 9 -> labelOf ex_sol i <> labelOf ex_sol 9).
  { assert (K : forallb (fun i => negb (streqb (labelOf ex_sol i) (labelOf ex_sol 9))) (seq 0 9) = true) by (vm_compute; reflexivity).
    rewrite forallb_forall in K. intros i Hi E. specialize (K i). rewrite E, streqb_refl in K. assert (In i (seq 0 9)) by (apply in_seq; lia). specialize (K H). discriminate. }
  destruct (C224_partial ex_sol d (lit "Assimilant: garnet 25.00") 9 true (lit "assimilant:") [] (Q2Qc 25)) as (d' & A & B & _).
  - vm_compute. reflexivity.
  - exact Fst.
  - vm_compute. reflexivity.
  - vm_compute. reflexivity.
  - rewrite G.
    assert (E : option_map this (num_at (length (lit "garnet") + 13) (lower (lit "Assimilant: garnet 25.00"))) = Some (this (Q2Qc 25))) by (vm_compute; reflexivity).
    destruct (num_at (length (lit "garnet") + 13) (lower (lit "Assimilant: garnet 25.00"))) as [q|]; [|discriminate]. injection E as E. f_equal. apply Qc_is_canon. rewrite E. reflexivity.
  - exact L.
  - exists d'. split; [exact A|exact B].
Qed.
Print Assumptions C224_never.
Print Assumptions C224_partial.
Print Assumptions C224_shipped.
Print Assumptions C224_refuted.
