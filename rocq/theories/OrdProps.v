(** C93, C94, C95, C96: the solution phases with ordering parameters.

    [ordPhases] (OrdData.v) are amphibole (both structures), biotite (Taj),
    clinopyroxene, orthopyroxene, cummingtonite, melilite, nepheline, olivine,
    ortho-oxide, rhombohedral oxide and spinel. [ordered] (OrdSpec.v): in the
    region D the state that order() finds is stationary, nondegenerate, clear
    of the bounds and varies continuously. *)
From Coq Require Import Reals QArith Qreals ZArith NArith Arith List Lia Lra Bool.
From Coquelicot Require Import Coquelicot.
From Verif Require Import RealTac Sym SymNorm SymPath SolnModel SolnSpec ConProofs LaSpec LuModel LuProps OrdLimits OrdModel OrdData OrdCheck OrdSpec OrdProofs OrdOut.
Import List ListNotations.
Local Open Scope R_scope.

(** ** The kernel evaluates the checks *)
Lemma ords0 : forallb check0 ordPhases = true. Proof. vm_compute. reflexivity. Qed.
Lemma ords1 : forallb check1 ordPhases = true. Proof. vm_compute. reflexivity. Qed.
Lemma ords2 : forallb check2 ordPhases = true. Proof. vm_compute. reflexivity. Qed.
Lemma ords3 : forallb check3 ordPhases = true. Proof. vm_compute. reflexivity. Qed.
Lemma ordsE : forallb checkEnds ordPhases = true. Proof. vm_compute. reflexivity. Qed.
Lemma pick f ph : forallb f ordPhases = true -> In ph ordPhases -> f ph = true.
Proof. intros H I. rewrite forallb_forall in H. auto. Qed.

(** ** End members *)
Fixpoint freeEnd (x : expr) : bool :=
  match x with Num _ => true | Var n => N.ltb n 60 | Sym.Add a b | Sym.Sub a b | Sym.Mul a b | Sym.Div a b => freeEnd a && freeEnd b | Sym.Neg a => freeEnd a | _ => false end.
Fixpoint linEnd (x : expr) : bool :=
  match x with
  | Var n => negb (N.ltb n 60) | Sym.Add a b | Sym.Sub a b => linEnd a && linEnd b | Sym.Neg a => linEnd a
  | Sym.Mul a b => freeEnd a && linEnd b || linEnd a && freeEnd b | Sym.Div a b => linEnd a && freeEnd b | _ => false end.
Fixpoint constR (x : expr) : bool :=
  match x with Num _ => true | Var n => negb (N.ltb n 60) | Sym.Add a b | Sym.Sub a b | Sym.Mul a b | Sym.Div a b => constR a && constR b | Sym.Neg a => constR a | _ => false end.
Definition checkLin (ph : ordPhase) : bool :=
  match o_ends ph with None => true | Some (x, l) => linEnd x && forallb (fun y => linEnd y && constR y) l end.
Lemma ordsL : forallb checkLin ordPhases = true. Proof. vm_compute. reflexivity. Qed.

Lemma ge2 n : N.ltb n 60 = false -> N.ltb n 2 = false.
Proof. intros H. apply N.ltb_ge in H. apply N.ltb_ge. lia. Qed.
Lemma free_val r x : freeEnd x = true -> forall a b, denote [] (endEnv r a) x = denote [] (endEnv r b) x.
Proof.
  intros H a b. unfold denote. induction x; cbn [freeEnd val] in *; try discriminate; try reflexivity;
    try (apply andb_prop in H; destruct H; rewrite IHx1, IHx2 by auto; reflexivity).
  - unfold endEnv. rewrite H. reflexivity.
  - rewrite IHx by auto. reflexivity.
Qed.
Lemma lin_comb r x c : linEnd x = true -> forall a b,
  denote [] (endEnv r (fun i => a i + c * b i)) x = denote [] (endEnv r a) x + c * denote [] (endEnv r b) x.
Proof.
  intros H a b. induction x; cbn [linEnd] in H; try discriminate; unfold denote in *; cbn [val] in *.
  - unfold endEnv. apply negb_true_iff in H. rewrite H. rewrite (ge2 n H). reflexivity.
  - apply andb_prop in H. destruct H. rewrite IHx1, IHx2 by auto. ring.
  - apply andb_prop in H. destruct H. rewrite IHx1, IHx2 by auto. ring.
  - apply orb_prop in H. destruct H as [H|H]; apply andb_prop in H; destruct H as [H1 H2].
    + rewrite IHx2 by auto. rewrite (free_val r x1 H1 (fun i => a i + c * b i) a : val _ _ x1 = val _ _ x1). rewrite (free_val r x1 H1 b a : val _ _ x1 = val _ _ x1). ring.
    + rewrite IHx1 by auto. rewrite (free_val r x2 H2 (fun i => a i + c * b i) a : val _ _ x2 = val _ _ x2). rewrite (free_val r x2 H2 b a : val _ _ x2 = val _ _ x2). ring.
  - apply andb_prop in H. destruct H as [H1 H2]. rewrite IHx1 by auto.
    rewrite (free_val r x2 H2 (fun i => a i + c * b i) a : val _ _ x2 = val _ _ x2). rewrite (free_val r x2 H2 b a : val _ _ x2 = val _ _ x2). unfold Rdiv. ring.
  - rewrite IHx by auto. ring.
Qed.
(** derivative of a combination of end-member values *)
Lemma lin_derive r x : linEnd x = true -> forall (a : R -> nat -> R) (d : nat -> R) y0, (forall i, is_derive (fun y => a y i) y0 (d i)) ->
  is_derive (fun y => denote [] (endEnv r (a y)) x) y0 (denote [] (endEnv r d) x).
Proof.
  intros H a d y0 A. induction x; cbn [linEnd] in H; try discriminate; unfold denote in *; cbn [val] in *.
  - unfold endEnv. apply negb_true_iff in H. rewrite H. rewrite (ge2 n H). apply A.
  - apply andb_prop in H. destruct H. apply (is_derive_plus (K:=R_AbsRing) (V:=R_NormedModule)); auto.
  - apply andb_prop in H. destruct H. apply (is_derive_minus (K:=R_AbsRing) (V:=R_NormedModule)); auto.
  - apply orb_prop in H. destruct H as [H|H]; apply andb_prop in H; destruct H as [H1 H2].
    + apply (is_derive_ext (fun y => val (siteVal [] (endEnv r d)) (endEnv r d) x1 * val (siteVal [] (endEnv r (a y))) (endEnv r (a y)) x2)).
      { intros y. rewrite (free_val r x1 H1 d (a y) : val _ _ x1 = val _ _ x1). reflexivity. }
      apply is_derive_scal; auto.
    + rewrite Rmult_comm. apply (is_derive_ext (fun y => val (siteVal [] (endEnv r d)) (endEnv r d) x2 * val (siteVal [] (endEnv r (a y))) (endEnv r (a y)) x1)).
      { intros y. rewrite (free_val r x2 H2 d (a y) : val _ _ x2 = val _ _ x2). apply Rmult_comm. }
      apply is_derive_scal; auto.
  - apply andb_prop in H. destruct H as [H1 H2].
    unfold Rdiv. rewrite Rmult_comm. apply (is_derive_ext (fun y => / val (siteVal [] (endEnv r d)) (endEnv r d) x2 * val (siteVal [] (endEnv r (a y))) (endEnv r (a y)) x1)).
    { intros y. rewrite (free_val r x2 H2 d (a y) : val _ _ x2 = val _ _ x2). apply Rmult_comm. }
    apply is_derive_scal; auto.
  - apply (is_derive_opp (K:=R_AbsRing) (V:=R_NormedModule)); auto.
Qed.
Lemma const_val x : constR x = true -> forall r r' a, denote [] (endEnv r a) x = denote [] (endEnv r' a) x.
Proof.
  intros H r r' a. unfold denote. induction x; cbn [constR val] in *; try discriminate; try reflexivity;
    try (apply andb_prop in H; destruct H; rewrite IHx1, IHx2 by auto; reflexivity).
  - unfold endEnv. apply negb_true_iff in H. rewrite H. rewrite (ge2 n H). reflexivity.
  - rewrite IHx by auto. reflexivity.
Qed.

Lemma lin_scal r x c b : linEnd x = true -> denote [] (endEnv r (fun i => c * b i)) x = c * denote [] (endEnv r b) x.
Proof.
  intros H. set (z := fun _ : nat => 0).
  assert (X : forall f g : nat -> R, (forall i, f i = g i) -> denote [] (endEnv r f) x = denote [] (endEnv r g) x).
  { intros f g E. apply denote_ext. intros n. unfold endEnv. destruct (N.ltb n 2), (N.ltb n 60); auto. }
  pose proof (lin_comb r x 1 H z z) as Z. rewrite (X (fun i => z i + 1 * z i) z) in Z by (intros; unfold z; ring).
  pose proof (lin_comb r x c H z b) as Y. rewrite (X (fun i => z i + c * b i) (fun i => c * b i)) in Y by (intros; unfold z; ring). lra.
Qed.

Section Thm.
Variable ph : ordPhase.
Hypothesis In_ph : In ph ordPhases.
Variable sv : R -> R -> (nat -> R) -> nat -> R.
Variable slv : R -> R -> (nat -> R) -> vec -> vec.
Variable D : R -> R -> (nat -> R) -> Prop.
Hypothesis Or : ordered ph sv slv D.
Variable ends : nat -> R -> R -> nat -> R.
Hypothesis Ee : endsOK ends D.
Let C0 := pick _ ph ords0 In_ph.
Let C1 := pick _ ph ords1 In_ph.
Let C2 := pick _ ph ords2 In_ph.
Let C3 := pick _ ph ords3 In_ph.
Lemma nr38 : (o_nr ph < 38)%nat. Proof. apply (basics ph C0). Qed.

(** end-member terms *)
Lemma ends_lin x l : o_ends ph = Some (x, l) -> linEnd x = true /\ (forall i, (i < o_nr ph)%nat -> linEnd (nth1 l i) = true /\ constR (nth1 l i) = true
  /\ derives [] [] (N.of_nat (2 + i)) x (nth1 l i)).
Proof.
  intros E. pose proof (pick _ ph ordsL In_ph) as K. unfold checkLin in K. rewrite E in K. apply andb_prop in K. destruct K as [K1 K2].
  pose proof (pick _ ph ordsE In_ph) as K. unfold checkEnds in K. rewrite E in K. apply andb_prop in K. destruct K as [K3 K4]. apply Nat.eqb_eq in K3.
  rewrite forallb_forall in K2, K4. split; auto. intros i Hi. specialize (K2 (nth1 l i) (nth_In l zero (eq_ind_r (fun n => (i < n)%nat) Hi K3))).
  apply andb_prop in K2. destruct K2. split; [auto|]. split; [auto|]. apply (deriveCheck_ok [] [] []). apply K4. apply in_seq. lia.
Qed.
Lemma end_line a c b r (f : R -> R * R) y0 : (forall i, is_derive (fun y => ends a (fst (f y)) (snd (f y)) i) y0 (c * b i)) ->
  is_derive (fun y => endTerm ph ends a (fst (f y)) (snd (f y)) r) y0 (c * match o_ends ph with None => 0 | Some (x, _) => denote [] (endEnv r b) x end) /\
  forall i, (i < o_nr ph)%nat -> is_derive (fun y => endTerm_dx ph ends a i (fst (f y)) (snd (f y)) r) y0 (c * match o_ends ph with None => 0 | Some (_, l) => denote [] (endEnv r b) (nth1 l i) end).
Proof.
  intros H. unfold endTerm, endTerm_dx. destruct (o_ends ph) as [[x l]|] eqn:E.
  - destruct (ends_lin x l E) as [L1 L2]. split.
    + rewrite <- lin_scal by auto. apply (lin_derive r x L1 (fun y => ends a (fst (f y)) (snd (f y)))). exact H.
    + intros i Hi. destruct (L2 i Hi) as (L3 & _). rewrite <- lin_scal by auto. apply (lin_derive r _ L3 (fun y => ends a (fst (f y)) (snd (f y)))). exact H.
  - rewrite Rmult_0_r. split; [|intros]; exact (is_derive_const (K:=R_AbsRing) _ _).
Qed.
Lemma endT a c b t p r : (forall i, is_derive (fun y => ends a y p i) t (c * ends b t p i)) ->
  partialT (endTerm ph ends a) t p r (c * endTerm ph ends b t p r) /\ forall i, (i < o_nr ph)%nat -> partialT (endTerm_dx ph ends a i) t p r (c * endTerm_dx ph ends b i t p r).
Proof. intros H. exact (end_line a c (ends b t p) r (fun y => (y, p)) t H). Qed.
Lemma endP a c b t p r : (forall i, is_derive (fun y => ends a t y i) p (c * ends b t p i)) ->
  partialP (endTerm ph ends a) t p r (c * endTerm ph ends b t p r) /\ forall i, (i < o_nr ph)%nat -> partialP (endTerm_dx ph ends a i) t p r (c * endTerm_dx ph ends b i t p r).
Proof. intros H. exact (end_line a c (ends b t p) r (fun y => (t, y)) p H). Qed.
Lemma endX a i t p r : (i < o_nr ph)%nat -> partialX i (endTerm ph ends a) t p r (endTerm_dx ph ends a i t p r).
Proof.
  intros Hi. pose proof nr38. unfold partialX, endTerm, endTerm_dx. destruct (o_ends ph) as [[x l]|] eqn:E; [|exact (is_derive_const (K:=R_AbsRing) _ _)].
  destruct (ends_lin x l E) as [L1 L2]. destruct (L2 i Hi) as (_ & _ & L).
  set (v := N.of_nat (2 + i)) in *. assert (Hv : (2 <= v < 60)%N) by (unfold v; lia).
  specialize (L (endEnv r (ends a t p))). assert (Ev : endEnv r (ends a t p) v = r i).
  { unfold endEnv. destruct (N.ltb_spec v 2), (N.ltb_spec v 60); try lia. f_equal. unfold v. lia. }
  rewrite Ev in L. eapply is_derive_ext; [|apply L; split; intros ? []]. intros y. apply denote_ext. intros n. unfold set, endEnv.
  destruct (N.eqb_spec n v) as [->|Ne].
  - destruct (N.ltb_spec v 2), (N.ltb_spec v 60); try lia. unfold upd. replace (N.to_nat v - 2)%nat with i by (unfold v; lia). now rewrite Nat.eqb_refl.
  - destruct (N.ltb_spec n 2), (N.ltb_spec n 60); auto. unfold upd. destruct (Nat.eqb_spec (N.to_nat n - 2) i) as [Q|]; auto. exfalso. apply Ne. unfold v. lia.
Qed.
Lemma endXX a i j t p r : (i < o_nr ph)%nat -> partialX j (endTerm_dx ph ends a i) t p r 0.
Proof.
  intros Hi. unfold partialX, endTerm_dx. destruct (o_ends ph) as [[x l]|] eqn:E; [|exact (is_derive_const (K:=R_AbsRing) _ _)].
  destruct (ends_lin x l E) as [L1 L2]. destruct (L2 i Hi) as (_ & L & _).
  apply (is_derive_ext (fun _ => denote [] (endEnv r (ends a t p)) (nth1 l i))). { intros y. now apply const_val. }
  exact (is_derive_const (K:=R_AbsRing) _ _).
Qed.

(** without end members *)
Section At.
Variables (t p : R) (r : nat -> R).
Hypothesis Hq : D t p r.
Notation q := (t, p, r).
Let oT : outer ph vT. Proof. now split. Qed.
Let oP : outer ph vP. Proof. now split. Qed.
Lemma oR i : (i < o_nr ph)%nat -> outer ph (vR i). Proof. now split. Qed.
Lemma t_pos : 0 < t.
Proof. apply (proj2 (ord_inside _ _ _ _ Or t p r Hq) 0%N). now left. Qed.
Lemma g_x i : (i < o_nr ph)%nat -> partialX i (og ph sv) t p r (og_dx ph sv t p r i).
Proof. intros Hi. exact (G_o ph C0 C1 C2 sv slv D Or (vR i) q (oR i Hi) Hq). Qed.
Lemma g_xx i j : (i < o_nr ph)%nat -> (j < o_nr ph)%nat -> partialX j (fun t p r => og_dx ph sv t p r i) t p r (og_dx2 ph sv slv t p r i j).
Proof. intros Hi Hj. exact (pd_Q1 ph C0 C1 C2 sv slv D Or (vR i) (vR j) q (oR i Hi) (oR j Hj) Hq). Qed.
Lemma g_xxx i j k : (i < o_nr ph)%nat -> (j < o_nr ph)%nat -> (k < o_nr ph)%nat ->
  partialX k (fun t p r => og_dx2 ph sv slv t p r i j) t p r (og_dx3 ph sv slv t p r i j k).
Proof. intros Hi Hj Hk. exact (pd_Q2 ph C0 C1 C2 C3 sv slv D Or (vR i) (vR j) (vR k) q (oR i Hi) (oR j Hj) (oR k Hk) Hq). Qed.
Lemma g_t : partialT (og ph sv) t p r (- os ph sv t p r).
Proof. exact (G_o ph C0 C1 C2 sv slv D Or vT q oT Hq). Qed.
Lemma g_p : partialP (og ph sv) t p r (ov ph sv t p r).
Proof. exact (G_o ph C0 C1 C2 sv slv D Or vP q oP Hq). Qed.
Lemma neg_derive (f : R -> R) y0 d : is_derive (fun y => - f y) y0 d -> is_derive f y0 (- d).
Proof.
  intros H. apply (is_derive_ext (fun y => - - f y)). { intros. apply Ropp_involutive. }
  apply (is_derive_opp (K:=R_AbsRing) (V:=R_NormedModule)). exact H.
Qed.
Lemma s_o o : outer ph o -> pd o (fun q => at3 (os ph sv) q) q (- Q2 ph sv slv vT o q).
Proof. intros Oo. apply neg_derive. exact (pd_Q1 ph C0 C1 C2 sv slv D Or vT o q oT Oo Hq). Qed.
Lemma s_t : partialT (os ph sv) t p r (oc ph sv slv t p r / t).
Proof.
  pose proof t_pos. eapply is_derive_eq'; [exact (s_o vT oT)|]. unfold oc. rewrite out_hess.
  match goal with |- ?a = ?b => change (@eq R a b) end. field. lra.
Qed.
Lemma s_x i : (i < o_nr ph)%nat -> partialX i (os ph sv) t p r (os_dx ph sv slv t p r i).
Proof. intros Hi. rewrite out_s_dx. exact (s_o (vR i) (oR i Hi)). Qed.
Lemma q_o o1 o2 o3 F d : outer ph o1 -> outer ph o2 -> outer ph o3 -> (forall q, F q = Q2 ph sv slv o1 o2 q) -> d = Q3 ph sv slv o1 o2 o3 q -> pd o3 F q d.
Proof.
  intros O1 O2 O3 EF ->. eapply is_derive_ext; [|exact (pd_Q2 ph C0 C1 C2 C3 sv slv D Or o1 o2 o3 q O1 O2 O3 Hq)]. intros y. symmetry. apply EF.
Qed.
Lemma rot1 o1 o2 o3 : outer ph o1 -> outer ph o2 -> outer ph o3 -> Full ph sv slv o1 o2 o3 q = Q3 ph sv slv o3 o1 o2 q.
Proof.
  intros O1 O2 O3. rewrite (Full_Q3 ph C0 sv slv D Or o1 o2 o3 q Hq). symmetry. apply (Q3_rot ph C3 sv slv D Or o3 o1 o2 q); auto; apply O1 || apply O2 || apply O3.
Qed.
Lemma rot2 o1 o2 o3 : outer ph o1 -> outer ph o2 -> outer ph o3 -> Full ph sv slv o1 o2 o3 q = Q3 ph sv slv o2 o3 o1 q.
Proof.
  intros O1 O2 O3. rewrite (Full_Q3 ph C0 sv slv D Or o1 o2 o3 q Hq). apply (Q3_rot ph C3 sv slv D Or o1 o2 o3 q); auto; apply O1 || apply O2 || apply O3.
Qed.
Lemma rot0 o1 o2 o3 : Full ph sv slv o1 o2 o3 q = Q3 ph sv slv o1 o2 o3 q.
Proof. exact (Full_Q3 ph C0 sv slv D Or o1 o2 o3 q Hq). Qed.
Lemma s_xx i j : (i < o_nr ph)%nat -> (j < o_nr ph)%nat -> partialX j (fun t p r => os_dx ph sv slv t p r i) t p r (os_dx2 ph sv slv t p r i j).
Proof.
  intros Hi Hj. rewrite (out_s_dx2 ph C2 C3 sv slv D Or t p r Hq i j Hi Hj). apply neg_derive.
  apply (q_o vT (vR i) (vR j) (fun q => - at3 (os_dx ph sv slv) q i)); auto using oR.
  - intros [[t' p'] r']. unfold at3; cbn [fst snd]. rewrite out_s_dx. ring.
  - apply rot1; auto using oR.
Qed.
Lemma scal_t (f : R -> R) d : is_derive f t d -> is_derive (fun y => f y * - y) t (- t * d - f t).
Proof.
  intros H. eapply is_derive_eq'.
  - apply (is_derive_mult (K:=R_AbsRing) f (fun y => - y)); [exact H| |intros; apply Rmult_comm].
    apply (is_derive_opp (K:=R_AbsRing) (V:=R_NormedModule)). exact (is_derive_id (K:=R_AbsRing) _).
  - cbn. unfold one. cbn. ring.
Qed.
Lemma c_t : partialT (oc ph sv slv) t p r (oc_dt ph sv slv t p r).
Proof.
  rewrite (out_c_dt ph C2 C3 sv slv D Or t p r Hq). rewrite <- (out_hess ph sv slv t p r). apply (scal_t (fun y => hessTT ph sv slv y p r)).
  apply (q_o vT vT vT (at3 (hessTT ph sv slv))); auto.
  - intros [[t' p'] r']. apply out_hess.
  - apply rot0.
Qed.
Lemma c_x i : (i < o_nr ph)%nat -> partialX i (oc ph sv slv) t p r (oc_dx ph sv slv t p r i).
Proof.
  intros Hi. rewrite (out_c_dx ph C2 C3 sv slv D Or t p r Hq i Hi).
  apply (is_derive_ext (fun y => - t * hessTT ph sv slv t p (upd r i y))). { intros y. unfold oc. apply Rmult_comm. }
  apply is_derive_scal. apply (q_o vT vT (vR i) (at3 (hessTT ph sv slv))); auto using oR.
  - intros [[t' p'] r']. apply out_hess.
  - apply rot2; auto using oR.
Qed.
Lemma v_o o : outer ph o -> pd o (fun q => at3 (ov ph sv) q) q (Q2 ph sv slv vP o q).
Proof. intros Oo. exact (pd_Q1 ph C0 C1 C2 sv slv D Or vP o q oP Oo Hq). Qed.
Lemma v_t : partialT (ov ph sv) t p r (ov_dt ph sv slv t p r).
Proof. rewrite out_v_dt. rewrite (Q2_sym ph C2 sv slv D Or vT vP q I I Hq). exact (v_o vT oT). Qed.
Lemma v_p : partialP (ov ph sv) t p r (ov_dp ph sv slv t p r).
Proof. rewrite out_v_dp. exact (v_o vP oP). Qed.
Lemma v_x i : (i < o_nr ph)%nat -> partialX i (ov ph sv) t p r (ov_dx ph sv slv t p r i).
Proof. intros Hi. rewrite out_v_dx. exact (v_o (vR i) (oR i Hi)). Qed.
Lemma v_tt : partialT (ov_dt ph sv slv) t p r (ov_dt2 ph sv slv t p r).
Proof.
  rewrite (out_v_dt2 ph C2 C3 sv slv D Or t p r Hq). apply (q_o vT vP vT (at3 (ov_dt ph sv slv))); auto.
  apply rot2; auto.
Qed.
Lemma v_tp : partialP (ov_dt ph sv slv) t p r (ov_dtdp ph sv slv t p r).
Proof.
  rewrite (out_v_dtdp ph C2 C3 sv slv D Or t p r Hq). apply (q_o vT vP vP (at3 (ov_dt ph sv slv))); auto.
  apply rot0.
Qed.
Lemma v_pt : partialT (ov_dp ph sv slv) t p r (ov_dtdp ph sv slv t p r).
Proof.
  rewrite (out_v_dtdp ph C2 C3 sv slv D Or t p r Hq). apply (q_o vP vP vT (at3 (ov_dp ph sv slv))); auto.
  - intros [[t' p'] r']. apply out_v_dp.
  - apply rot2; auto.
Qed.
Lemma v_pp : partialP (ov_dp ph sv slv) t p r (ov_dp2 ph sv slv t p r).
Proof.
  rewrite (out_v_dp2 ph C2 C3 sv slv D Or t p r Hq). apply (q_o vP vP vP (at3 (ov_dp ph sv slv))); auto.
  - intros [[t' p'] r']. apply out_v_dp.
  - apply rot0.
Qed.
Lemma v_xx i j : (i < o_nr ph)%nat -> (j < o_nr ph)%nat -> partialX j (fun t p r => ov_dx ph sv slv t p r i) t p r (ov_dx2 ph sv slv t p r i j).
Proof.
  intros Hi Hj. rewrite (out_v_dx2 ph C2 C3 sv slv D Or t p r Hq i j Hi Hj). apply (q_o vP (vR i) (vR j) (fun q => at3 (ov_dx ph sv slv) q i)); auto using oR.
  - intros [[t' p'] r']. apply out_v_dx.
  - apply rot1; auto using oR.
Qed.
Lemma v_xt i : (i < o_nr ph)%nat -> partialT (fun t p r => ov_dx ph sv slv t p r i) t p r (ov_dxdt ph sv slv t p r i).
Proof.
  intros Hi. rewrite (out_v_dxdt ph C2 C3 sv slv D Or t p r Hq i Hi). apply (q_o vP (vR i) vT (fun q => at3 (ov_dx ph sv slv) q i)); auto using oR.
  - intros [[t' p'] r']. apply out_v_dx.
  - apply rot1; auto using oR.
Qed.
Lemma v_xp i : (i < o_nr ph)%nat -> partialP (fun t p r => ov_dx ph sv slv t p r i) t p r (ov_dxdp ph sv slv t p r i).
Proof.
  intros Hi. rewrite (out_v_dxdp ph C2 C3 sv slv D Or t p r Hq i Hi). apply (q_o vP (vR i) vP (fun q => at3 (ov_dx ph sv slv) q i)); auto using oR.
  - intros [[t' p'] r']. apply out_v_dx.
  - apply rot1; auto using oR.
Qed.
End At.
End Thm.

(** ** The theorems *)
Ltac sub_derive := apply (is_derive_minus (K:=R_AbsRing) (V:=R_NormedModule)).
Ltac in_R := match goal with |- ?a = ?b => change (@eq R a b) end.

(** C93: free energy of mixing, gradient, Hessian, third derivatives *)
Theorem C93_gmix_ordered : forall ph, In ph ordPhases -> forall sv slv D, ordered ph sv slv D -> forall ends t p r, D t p r ->
  forall i j k, (i < o_nr ph)%nat -> (j < o_nr ph)%nat -> (k < o_nr ph)%nat ->
  partialX i (gmixO ph sv ends) t p r (gmixO_dx ph sv ends i t p r)
  /\ partialX j (gmixO_dx ph sv ends i) t p r (gmixO_dx2 ph sv slv i j t p r)
  /\ partialX k (gmixO_dx2 ph sv slv i j) t p r (gmixO_dx3 ph sv slv i j k t p r).
Proof.
  intros ph Iph sv slv D Or ends t p r Hq i j k Hi Hj Hk. split; [|split].
  - sub_derive; [apply (g_x ph Iph sv slv D Or); assumption|apply endX; assumption].
  - eapply is_derive_eq'; [sub_derive; [apply (g_xx ph Iph sv slv D Or); assumption|apply endXX; assumption]|]. in_R. unfold gmixO_dx2. cbn. unfold plus, opp. cbn. ring.
  - apply (g_xxx ph Iph sv slv D Or); assumption.
Qed.
(** C94: entropy, enthalpy and heat capacity *)
Theorem C94_smix_hmix_cpmix_ordered : forall ph, In ph ordPhases -> forall sv slv D, ordered ph sv slv D -> forall ends, endsOK ends D ->
  forall t p r, D t p r ->
  partialT (gmixO ph sv ends) t p r (- smixO ph sv ends t p r)
  /\ hmixO ph sv ends t p r = gmixO ph sv ends t p r + t * smixO ph sv ends t p r
  /\ partialT (smixO ph sv ends) t p r (cpmixO ph sv slv ends t p r / t)
  /\ partialT (cpmixO ph sv slv ends) t p r (cpmixO_dt ph sv slv ends t p r)
  /\ forall i j, (i < o_nr ph)%nat -> (j < o_nr ph)%nat ->
       partialX i (smixO ph sv ends) t p r (smixO_dx ph sv slv ends i t p r)
       /\ partialX j (smixO_dx ph sv slv ends i) t p r (smixO_dx2 ph sv slv i j t p r)
       /\ partialX i (cpmixO ph sv slv ends) t p r (cpmixO_dx ph sv slv ends i t p r).
Proof.
  intros ph Iph sv slv D Or ends En t p r Hq.
  pose proof (t_pos ph sv slv D Or t p r Hq) as Pt.
  split; [|split; [|split; [|split]]].
  - eapply is_derive_eq'; [sub_derive; [apply (g_t ph Iph sv slv D Or t p r Hq)|refine (proj1 (endT ph Iph ends 0 (-1) 2 t p r _))]|].
    + intros i. eapply is_derive_eq'; [apply (en_s _ _ En t p r i Hq)|]. in_R. ring.
    + in_R. unfold smixO. cbn. unfold plus, opp. cbn. ring.
  - unfold hmixO, gmixO, smixO, oh, endTerm. destruct (o_ends ph) as [[x l]|] eqn:Eo; [|ring].
    rewrite (denote_ext [] (endEnv r (ends 1%nat t p)) (endEnv r (fun i => ends 0%nat t p i + t * ends 2%nat t p i))).
    + rewrite lin_comb by (apply (ends_lin ph Iph x l); assumption). ring.
    + intros n. unfold endEnv. destruct (N.ltb n 2), (N.ltb n 60); auto. apply (en_h _ _ En t p r _ Hq).
  - eapply is_derive_eq'; [sub_derive; [apply (s_t ph Iph sv slv D Or t p r Hq)|refine (proj1 (endT ph Iph ends 2 (/ t) 3 t p r _))]|].
    + intros i. eapply is_derive_eq'; [apply (en_c _ _ En t p r i Hq)|]. in_R. field. lra.
    + in_R. unfold cpmixO. cbn. unfold plus, opp. cbn. field. lra.
  - eapply is_derive_eq'; [sub_derive; [apply (c_t ph Iph sv slv D Or t p r Hq)|refine (proj1 (endT ph Iph ends 3 1 4 t p r _))]|].
    + intros i. eapply is_derive_eq'; [apply (en_ct _ _ En t p r i Hq)|]. in_R. ring.
    + in_R. unfold cpmixO_dt. cbn. unfold plus, opp. cbn. ring.
  - intros i j Hi Hj. split; [|split].
    + sub_derive; [apply (s_x ph Iph sv slv D Or); assumption|apply endX; assumption].
    + eapply is_derive_eq'; [sub_derive; [apply (s_xx ph Iph sv slv D Or); assumption|apply endXX; assumption]|]. in_R. unfold smixO_dx2. cbn. unfold plus, opp. cbn. ring.
    + sub_derive; [apply (c_x ph Iph sv slv D Or); assumption|apply endX; assumption].
Qed.
(** C95: volume *)
Theorem C95_vmix_ordered : forall ph, In ph ordPhases -> forall sv slv D, ordered ph sv slv D -> forall ends, endsOK ends D ->
  forall t p r, D t p r ->
  partialP (gmixO ph sv ends) t p r (vmixO ph sv ends t p r)
  /\ partialT (vmixO ph sv ends) t p r (vmixO_dt ph sv slv ends t p r) /\ partialP (vmixO ph sv ends) t p r (vmixO_dp ph sv slv ends t p r)
  /\ partialT (vmixO_dt ph sv slv ends) t p r (vmixO_dt2 ph sv slv ends t p r) /\ partialP (vmixO_dt ph sv slv ends) t p r (vmixO_dtdp ph sv slv ends t p r)
  /\ partialP (vmixO_dp ph sv slv ends) t p r (vmixO_dp2 ph sv slv ends t p r)
  /\ forall i j, (i < o_nr ph)%nat -> (j < o_nr ph)%nat ->
       partialX i (vmixO ph sv ends) t p r (vmixO_dx ph sv slv ends i t p r)
       /\ partialX j (vmixO_dx ph sv slv ends i) t p r (vmixO_dx2 ph sv slv i j t p r)
       /\ partialT (vmixO_dx ph sv slv ends i) t p r (vmixO_dxdt ph sv slv ends i t p r)
       /\ partialP (vmixO_dx ph sv slv ends i) t p r (vmixO_dxdp ph sv slv ends i t p r).
Proof.
  intros ph Iph sv slv D Or ends En t p r Hq.
  Ltac fin := in_R; unfold vmixO, vmixO_dt, vmixO_dp, vmixO_dt2, vmixO_dtdp, vmixO_dp2, vmixO_dx2, vmixO_dxdt, vmixO_dxdp; cbn; unfold plus, opp; cbn; ring.
  Ltac one_end H := intros ?; eapply is_derive_eq'; [apply H|]; in_R; ring.
  split; [|split; [|split; [|split; [|split; [|split]]]]].
  - eapply is_derive_eq'; [sub_derive; [apply (g_p ph Iph sv slv D Or t p r Hq)|refine (proj1 (endP ph Iph ends 0 1 5 t p r _))]|fin].
    one_end (fun i => en_v _ _ En t p r i Hq).
  - eapply is_derive_eq'; [sub_derive; [apply (v_t ph Iph sv slv D Or t p r Hq)|refine (proj1 (endT ph Iph ends 5 1 6 t p r _))]|fin].
    one_end (fun i => en_vt _ _ En t p r i Hq).
  - eapply is_derive_eq'; [sub_derive; [apply (v_p ph Iph sv slv D Or t p r Hq)|refine (proj1 (endP ph Iph ends 5 1 7 t p r _))]|fin].
    one_end (fun i => en_vp _ _ En t p r i Hq).
  - eapply is_derive_eq'; [sub_derive; [apply (v_tt ph Iph sv slv D Or t p r Hq)|refine (proj1 (endT ph Iph ends 6 1 8 t p r _))]|fin].
    one_end (fun i => en_vtt _ _ En t p r i Hq).
  - eapply is_derive_eq'; [sub_derive; [apply (v_tp ph Iph sv slv D Or t p r Hq)|refine (proj1 (endP ph Iph ends 6 1 9 t p r _))]|fin].
    one_end (fun i => en_vtp _ _ En t p r i Hq).
  - eapply is_derive_eq'; [sub_derive; [apply (v_pp ph Iph sv slv D Or t p r Hq)|refine (proj1 (endP ph Iph ends 7 1 10 t p r _))]|fin].
    one_end (fun i => en_vpp _ _ En t p r i Hq).
  - intros i j Hi Hj. split; [|split; [|split]].
    + sub_derive; [apply (v_x ph Iph sv slv D Or); assumption|apply endX; assumption].
    + eapply is_derive_eq'; [sub_derive; [apply (v_xx ph Iph sv slv D Or); assumption|apply endXX; assumption]|fin].
    + eapply is_derive_eq'; [sub_derive; [apply (v_xt ph Iph sv slv D Or); assumption|refine (proj2 (endT ph Iph ends 5 1 6 t p r _) i Hi)]|fin].
      one_end (fun i => en_vt _ _ En t p r i Hq).
    + eapply is_derive_eq'; [sub_derive; [apply (v_xp ph Iph sv slv D Or); assumption|refine (proj2 (endP ph Iph ends 5 1 7 t p r _) i Hi)]|fin].
      one_end (fun i => en_vp _ _ En t p r i Hq).
Qed.
(** C96: the derivatives of the ordering state that order() returns *)
Theorem C96_order_derivatives : forall ph, In ph ordPhases -> forall sv slv D, ordered ph sv slv D -> forall t p r, D t p r ->
  forall k, (k < o_ns ph)%nat ->
  partialT (fun t p r => sv t p r k) t p r (dsdt ph sv slv t p r k)
  /\ partialP (fun t p r => sv t p r k) t p r (dsdp ph sv slv t p r k)
  /\ partialT (fun t p r => dsdt ph sv slv t p r k) t p r (d2sdt2 ph sv slv t p r k)
  /\ partialP (fun t p r => dsdt ph sv slv t p r k) t p r (d2sdtdp ph sv slv t p r k)
  /\ partialP (fun t p r => dsdp ph sv slv t p r k) t p r (d2sdp2 ph sv slv t p r k)
  /\ forall i j, (i < o_nr ph)%nat -> (j < o_nr ph)%nat ->
       partialX i (fun t p r => sv t p r k) t p r (dsdr ph sv slv t p r k i)
       /\ partialX j (fun t p r => dsdr ph sv slv t p r k i) t p r (d2sdr2 ph sv slv t p r k i j)
       /\ partialT (fun t p r => dsdr ph sv slv t p r k i) t p r (d2sdrdt ph sv slv t p r k i)
       /\ partialP (fun t p r => dsdr ph sv slv t p r k i) t p r (d2sdrdp ph sv slv t p r k i).
Proof.
  intros ph Iph sv slv D Or t p r Hq k Hk.
  pose proof (pick _ ph ords0 Iph) as C0. pose proof (pick _ ph ords1 Iph) as C1. pose proof (pick _ ph ords2 Iph) as C2. pose proof (pick _ ph ords3 Iph) as C3.
  assert (oT : outer ph vT) by (split; exact I). assert (oP : outer ph vP) by (split; exact I).
  pose proof (fun o Oo => state_derive ph C0 C1 C2 sv slv D Or o (t, p, r) k Oo Hq Hk) as S1.
  pose proof (fun o o' Oo Oo' => state_derive2 ph C0 C1 C2 C3 sv slv D Or o o' (t, p, r) k Oo Oo' Hq Hk) as S2.
  split; [exact (S1 vT oT)|]. split; [exact (S1 vP oP)|].
  split; [rewrite d2sdt2_s2; exact (S2 vT vT oT oT)|]. split; [exact (S2 vT vP oT oP)|]. split; [rewrite d2sdp2_s2; exact (S2 vP vP oP oP)|].
  intros i j Hi Hj. pose proof (oR ph i Hi) as oi. pose proof (oR ph j Hj) as oj.
  split; [exact (S1 (vR i) oi)|]. split; [exact (S2 (vR i) (vR j) oi oj)|]. split; [exact (S2 (vR i) vT oi oT)|exact (S2 (vR i) vP oi oP)].
Qed.
