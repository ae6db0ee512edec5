(** C97, C98: activities and chemical potentials of the phases with ordering
    parameters. [ordActs] (OrdActData.v) are the twelve phases of [ordPhases]
    with their activity functions and conversion functions; [ordered]
    (OrdSpec.v) and [follows] (OrdActSpec.v) speak of the ordering state. *)
From Coq Require Import Reals QArith Qreals ZArith NArith Arith List Lia Lra Bool FunctionalExtensionality.
From Coquelicot Require Import Coquelicot.
From Verif Require Import RealTac Sym SymNorm SymPath SolnModel SolnSpec ConData ConProofs SolnProofs LaSpec LuModel LuProps OrdLimits OrdModel OrdData OrdCheck OrdSpec OrdProofs OrdOut OrdProps OrdPath
  OrdActModel OrdActData OrdActCheck OrdActSpec.
Import List ListNotations.
Local Open Scope R_scope.

Lemma acts_in A : In A ordActs -> In (oa_ph A) ordPhases.
Proof.
  assert (E : map oa_ph ordActs = ordPhases) by reflexivity. intros H. rewrite <- E. now apply in_map.
Qed.
Lemma below_ok n f i : below n f = true -> (i < n)%nat -> f i = true.
Proof. exact (upto_ok n f i). Qed.
Lemma upd_same (m : nat -> R) i : upd m i (m i) = m.
Proof. apply functional_extensionality. intros j. unfold upd. destruct (Nat.eqb_spec j i); subst; auto. Qed.
Lemma ode (r : nat -> R) en i : (i < 38)%nat -> endEnv r en (N.of_nat (2 + i)) = r i.
Proof. intros H. unfold endEnv. destruct (N.ltb_spec (N.of_nat (2 + i)) 2), (N.ltb_spec (N.of_nat (2 + i)) 60); try lia. f_equal. lia. Qed.
Lemma ode60 (r : nat -> R) en i : endEnv r en (N.of_nat (60 + i)) = en i.
Proof. unfold endEnv. destruct (N.ltb_spec (N.of_nat (60 + i)) 2), (N.ltb_spec (N.of_nat (60 + i)) 60); try lia. f_equal. lia. Qed.

Section Act.
Variable A : ordAct.
Hypothesis In_A : In A ordActs.
Notation ph := (oa_ph A).
Notation c := (oa_con A).
Notation NR := (o_nr ph).
Notation na := (o_na ph).
Lemma In_ph : In ph ordPhases. Proof. exact (acts_in A In_A). Qed.
Variable sv : R -> R -> (nat -> R) -> nat -> R.
Variable slv : R -> R -> (nat -> R) -> vec -> vec.
Variable D : R -> R -> (nat -> R) -> Prop.
Hypothesis Or : ordered ph sv slv D.
Variable ends : nat -> R -> R -> nat -> R.
Notation C i j := (Q2R (comp A i j)).

Lemma readA : (cv_na c = na /\ cv_nr c = NR /\ conCheck c = true)
  /\ (forall i j, (i < na)%nat -> (j < NR)%nat ->
       same (o_sites ph) [0%N] (nth2 (oa_fr A) i j) (Sub (Num (comp A i j)) (Var (N.of_nat (2 + j))))
       /\ same (o_sites ph) [0%N] (nth2 (oa_dfr A) i j) (Num (-1)) /\ C i j = Q2R (coef c j i))
  /\ (forall x l, o_ends ph = Some (x, l) -> forall i, (i < na)%nat ->
       same [] [] (Sym.Add x (ConProofs.sumE NR (fun j => Mul (Sub (Num (comp A i j)) (Var (N.of_nat (2 + j)))) (nth1 l j)))) (Var (N.of_nat (60 + i)))).
Proof.
  pose proof actsOK as K. rewrite forallb_forall in K. specialize (K A In_A). unfold checkAct in K. cbv zeta in K.
  apply andb_prop in K. destruct K as [K K6]. apply andb_prop in K. destruct K as [K K5]. apply andb_prop in K. destruct K as [K K4].
  apply andb_prop in K. destruct K as [K K3]. apply andb_prop in K. destruct K as [K1 K2]. apply Nat.eqb_eq in K1, K2.
  split; [split; [exact K1|split; [exact K2|exact K4]]|]. split.
  - intros i j Hi Hj. pose proof (below_ok _ _ j (below_ok _ _ i K3 Hi) Hj) as Q. cbv beta in Q. apply andb_prop in Q. destruct Q as [Q1 Q2].
    split; [exact (sameCheck_ok _ _ _ _ _ Q1)|]. split; [exact (sameCheck_ok _ _ _ _ _ Q2)|].
    pose proof (below_ok _ _ i (below_ok _ _ j K5 Hj) Hi) as Q. apply Qeq_bool_iff in Q. now apply Qeq_eqR.
  - intros x l E i Hi. rewrite E in K6. exact (sameCheck_ok _ _ _ _ _ (below_ok _ _ i K6 Hi)).
Qed.
Lemma Ena : cv_na c = na. Proof. exact (proj1 (proj1 readA)). Qed.
Lemma Enr : cv_nr c = NR. Proof. exact (proj1 (proj2 (proj1 readA))). Qed.
Lemma Cc : conCheck c = true. Proof. exact (proj2 (proj2 (proj1 readA))). Qed.
Lemma nr38' : (NR < 38)%nat. Proof. exact (nr38 ph In_ph). Qed.
Lemma na_pos : (0 < na)%nat. Proof. rewrite <- Ena. exact (proj1 (proj1 (ck c Cc))). Qed.

(** fr and dfrdr *)
Lemma fr_val t p r i j : D t p r -> (i < na)%nat -> (j < NR)%nat -> fr A sv t p r i j = C i j - r j.
Proof.
  intros Hq Hi Hj. pose proof nr38'. destruct (proj1 (proj2 readA) i j Hi Hj) as (F & _).
  unfold fr, v2, ev. rewrite (F (opt t p r (sv t p r)) (ord_inside _ _ _ _ Or t p r Hq)). rewrite denote_sub, denote_num, denote_var. f_equal.
  exact (pe_code ph (pick _ ph ords0 In_ph) sv (vR j) (t, p, r) Hj).
Qed.
Lemma dfr_val t p r i j : D t p r -> (i < na)%nat -> (j < NR)%nat -> dfr A sv t p r i j = - (1).
Proof.
  intros Hq Hi Hj. destruct (proj1 (proj2 readA) i j Hi Hj) as (_ & F & _).
  unfold dfr, v2, ev. rewrite (F (opt t p r (sv t p r)) (ord_inside _ _ _ _ Or t p r Hq)). rewrite denote_num. unfold Q2R. cbn. lra.
Qed.
(** the end-member term is affine in the composition *)
Lemma ends_comb a t p r i : (i < na)%nat -> match o_ends ph with None => 0 | Some _ => ends a t p i end
  = endTerm ph ends a t p r + sum NR (fun j => (C i j - r j) * endTerm_dx ph ends a j t p r).
Proof.
  intros Hi. unfold endTerm, endTerm_dx. destruct (o_ends ph) as [[x l]|] eqn:E.
  - pose proof (proj2 (proj2 readA) x l E i Hi (endEnv r (ends a t p)) (inside_nil _)) as S.
    rewrite denote_var, ode60 in S. rewrite <- S. unfold denote at 1. cbn [val].
    change (val (siteVal [] (endEnv r (ends a t p))) (endEnv r (ends a t p))) with (denote [] (endEnv r (ends a t p))). f_equal.
    rewrite ConProofs.sumE_ok. change sumTo with sum. apply sumx. intros j Hj. rewrite denote_mul, denote_sub, denote_num, denote_var.
    rewrite ode by (pose proof nr38'; lia). reflexivity.
  - rewrite sum_zer by (intros; ring). ring.
Qed.
Lemma endTerm_dx_const a j t p r r' : (j < NR)%nat -> endTerm_dx ph ends a j t p r = endTerm_dx ph ends a j t p r'.
Proof.
  intros Hj. unfold endTerm_dx. destruct (o_ends ph) as [[x l]|] eqn:E; auto.
  destruct (ends_lin ph In_ph x l E) as (_ & L). apply const_val. now apply L.
Qed.
Lemma endTerm_affine a t p r r' : endTerm ph ends a t p r' = endTerm ph ends a t p r + sum NR (fun j => (r' j - r j) * endTerm_dx ph ends a j t p r).
Proof.
  pose proof (ends_comb a t p r 0%nat na_pos) as E. pose proof (ends_comb a t p r' 0%nat na_pos) as E'. rewrite E in E'. clear E.
  rewrite (sumx NR (fun j => (C 0 j - r' j) * endTerm_dx ph ends a j t p r') (fun j => (C 0 j - r j) * endTerm_dx ph ends a j t p r - (r' j - r j) * endTerm_dx ph ends a j t p r)) in E'.
  - rewrite OrdLimits.sum_sub in E'. lra.
  - intros j Hj. rewrite (endTerm_dx_const a j t p r' r Hj). ring.
Qed.
(** potentials *)
Lemma mu_form t p r i : D t p r -> (i < na)%nat ->
  actO_mu A sv ends i t p r = gmixO ph sv ends t p r + sum NR (fun j => (C i j - r j) * gmixO_dx ph sv ends j t p r).
Proof.
  intros Hq Hi. unfold actO_mu, gmixO, gmixO_dx, aArg. pose proof (ends_comb 0%nat t p r i Hi) as E.
  rewrite (sumx NR (fun j => (C i j - r j) * (og_dx ph sv t p r j - endTerm_dx ph ends 0 j t p r))
     (fun j => (C i j - r j) * og_dx ph sv t p r j - (C i j - r j) * endTerm_dx ph ends 0 j t p r)) by (intros; ring).
  rewrite OrdLimits.sum_sub. rewrite (sumx NR (fun j => fr A sv t p r i j * og_dx ph sv t p r j) (fun j => (C i j - r j) * og_dx ph sv t p r j)).
  2:{ intros j Hj. now rewrite fr_val. }
  destruct (o_ends ph); lra.
Qed.

(** along a path of compositions *)
Section Path.
Hypothesis Fo : follows ph sv D.
Variables (t p : R) (rr : R -> nat -> R) (y0 : R) (d : nat -> R).
Hypothesis D0 : D t p (rr y0).
Hypothesis Rd : forall j, is_derive (fun y => rr y j) y0 (d j).
Lemma rr_cont : forall j, filterlim (fun y => rr y j) (locally y0) (locally (rr y0 j)).
Proof. intros j. apply (ex_derive_continuous (K:=R_AbsRing) (V:=R_NormedModule) (fun y => rr y j)). eexists. exact (Rd j). Qed.
Lemma near : locally y0 (fun y => D t p (rr y)).
Proof. exact (proj1 (Fo t p rr y0 D0 rr_cont)). Qed.
Lemma sum_derive n (f : nat -> R -> R) (e : nat -> R) : (forall j, (j < n)%nat -> is_derive (f j) y0 (e j)) -> is_derive (fun y => sum n (fun j => f j y)) y0 (sum n e).
Proof.
  induction n as [|n IH]; intros H; cbn [sum]; [exact (is_derive_const (K:=R_AbsRing) _ _)|].
  apply (is_derive_plus (K:=R_AbsRing) (V:=R_NormedModule)); [apply IH; intros; apply H; lia|apply H; lia].
Qed.
Lemma gmix_path : is_derive (fun y => gmixO ph sv ends t p (rr y)) y0 (sum NR (fun j => d j * gmixO_dx ph sv ends j t p (rr y0))).
Proof.
  destruct (Fo t p rr y0 D0 rr_cont) as [Dp Sc]. unfold gmixO, gmixO_dx.
  assert (EE : is_derive (fun y => endTerm ph ends 0 t p (rr y)) y0 (sum NR (fun j => d j * endTerm_dx ph ends 0 j t p (rr y0)))).
  { apply (is_derive_ext (fun y => endTerm ph ends 0 t p (rr y0) + sum NR (fun j => (rr y j - rr y0 j) * endTerm_dx ph ends 0 j t p (rr y0)))).
    { intros y. symmetry. apply endTerm_affine. }
    eapply is_derive_eq'.
    - apply (is_derive_plus (K:=R_AbsRing) (V:=R_NormedModule)); [exact (is_derive_const (K:=R_AbsRing) _ _)|].
      apply (sum_derive NR (fun j y => (rr y j - rr y0 j) * endTerm_dx ph ends 0 j t p (rr y0)) (fun j => d j * endTerm_dx ph ends 0 j t p (rr y0))).
      intros j Hj. apply (is_derive_ext (fun y => endTerm_dx ph ends 0 j t p (rr y0) * (rr y j - rr y0 j))). { intros; apply Rmult_comm. }
      rewrite Rmult_comm. apply is_derive_scal. eapply is_derive_eq'; [apply (is_derive_minus (K:=R_AbsRing) (V:=R_NormedModule)); [exact (Rd j)|exact (is_derive_const (K:=R_AbsRing) _ _)]|].
      cbn. unfold minus, plus, opp, zero. cbn. ring.
    - cbn. unfold plus, zero. cbn. ring. }
  eapply is_derive_eq'.
  - apply (is_derive_minus (K:=R_AbsRing) (V:=R_NormedModule)); [|exact EE].
    exact (path_g ph (pick _ ph ords0 In_ph) (pick _ ph ords1 In_ph) (pick _ ph ords2 In_ph) sv slv D Or t p rr y0 d Dp Sc (fun j _ => Rd j)).
  - unfold minus, plus, opp. cbn. rewrite (sumx NR (fun j => d j * (og_dx ph sv t p (rr y0) j - endTerm_dx ph ends 0 j t p (rr y0)))
      (fun j => d j * og_dx ph sv t p (rr y0) j - d j * endTerm_dx ph ends 0 j t p (rr y0))) by (intros; ring). rewrite OrdLimits.sum_sub. ring.
Qed.
Lemma gmixdx_path i : (i < NR)%nat -> ex_derive (fun y => gmixO_dx ph sv ends i t p (rr y)) y0.
Proof.
  intros Hi. destruct (Fo t p rr y0 D0 rr_cont) as [Dp Sc]. unfold gmixO_dx.
  apply (ex_derive_minus (K:=R_AbsRing) (V:=R_NormedModule)).
  - exact (path_gx ph (pick _ ph ords0 In_ph) (pick _ ph ords1 In_ph) (pick _ ph ords2 In_ph) sv slv D Or t p rr y0 d Dp Sc (fun j _ => Rd j) i Hi).
  - apply (ex_derive_ext (fun _ => endTerm_dx ph ends 0 i t p (rr y0))); [intros; now apply endTerm_dx_const|apply ex_derive_const].
Qed.
Lemma mu_path : exists G' : nat -> R, forall i, (i < na)%nat ->
  is_derive (fun y => actO_mu A sv ends i t p (rr y)) y0 (sum NR (fun j => (C i j - rr y0 j) * G' j)).
Proof.
  exists (fun j => Derive (fun y => gmixO_dx ph sv ends j t p (rr y)) y0). intros i Hi.
  apply (is_derive_ext_loc (fun y => gmixO ph sv ends t p (rr y) + sum NR (fun j => (C i j - rr y j) * gmixO_dx ph sv ends j t p (rr y)))).
  { generalize near. apply filter_imp. intros y Dy. symmetry. now apply mu_form. }
  eapply is_derive_eq'.
  - apply (is_derive_plus (K:=R_AbsRing) (V:=R_NormedModule)); [exact gmix_path|].
    apply (sum_derive NR (fun j y => (C i j - rr y j) * gmixO_dx ph sv ends j t p (rr y))
      (fun j => - d j * gmixO_dx ph sv ends j t p (rr y0) + (C i j - rr y0 j) * Derive (fun y => gmixO_dx ph sv ends j t p (rr y)) y0)).
    intros j Hj. apply (is_derive_mult (K:=R_AbsRing) (fun y => C i j - rr y j)); [|apply Derive_correct; now apply gmixdx_path|intros; apply Rmult_comm].
    eapply is_derive_eq'; [apply (is_derive_minus (K:=R_AbsRing) (V:=R_NormedModule)); [exact (is_derive_const (K:=R_AbsRing) _ _)|exact (Rd j)]|].
    cbn. unfold minus, plus, opp, zero. cbn. ring.
  - unfold plus. cbn. rewrite <- OrdLimits.sum_add. apply sumx. intros j Hj. ring.
Qed.
End Path.

(** from moles *)
Section Moles.
Variable m : nat -> R.
Hypothesis P : 0 < sumTo na m.
Notation r := (fun j => con_r c j m).
Lemma Pc : 0 < total (cv_na c) m. Proof. rewrite Ena, total_sumTo. exact P. Qed.
Lemma r_form j : (j < NR)%nat -> con_r c j m = sum na (fun i => m i * C i j) / sumTo na m.
Proof.
  intros Hj. rewrite (con_r_lin c Cc m j Pc) by (rewrite Enr; exact Hj). change total with sumTo; rewrite Ena. f_equal.
  change sumTo with sum. apply sumx. intros i Hi. rewrite (proj2 (proj2 (proj1 (proj2 readA) i j Hi Hj))). ring.
Qed.
Lemma mix_zero (X : nat -> R) : sum na (fun i => m i * sum NR (fun j => (C i j - con_r c j m) * X j)) = 0.
Proof.
  rewrite (sumx na _ (fun i => sum NR (fun j => (m i * C i j - m i * con_r c j m) * X j))).
  2:{ intros i Hi. rewrite <- sum_mul. apply sumx. intros. ring. }
  rewrite sum_swp. apply sum_zer. intros j Hj. rewrite sum_mulr, OrdLimits.sum_sub, sum_mulr, (r_form j Hj).
  change sumTo with sum. field. change sum with sumTo. lra.
Qed.
Lemma dm_form i j : (i < na)%nat -> is_derive (fun y => con_r c j (upd m i y)) (m i) (if (j <? NR)%nat then (C i j - con_r c j m) / sumTo na m else 0).
Proof.
  intros Hi. destruct (Nat.ltb_spec j NR) as [Hj|Hj].
  - assert (Lc : (i < cv_na c)%nat) by (rewrite Ena; exact Hi). assert (Lj : (j < cv_nr c)%nat) by (rewrite Enr; exact Hj).
    eapply is_derive_eq'; [apply (con_partial c Cc); [|exact Pc]; destruct (proj1 (proj2 (proj2 (proj2 (ck c Cc)))) j i Lj Lc) as (Q & _); exact Q|].
    change (conCall c (nth2 (cv_dm c) j i) m) with (con_dm c j i m). rewrite (con_dm_lin c Cc) by (auto; exact Pc).
    change total with sumTo; rewrite Ena. rewrite (proj2 (proj2 (proj1 (proj2 readA) i j Hi Hj))). reflexivity.
  - apply (is_derive_ext (fun _ => 0)); [|exact (is_derive_const (K:=R_AbsRing) _ _)]. intros y. symmetry. apply (con_r_out c Cc). rewrite Enr. exact Hj.
Qed.
End Moles.
End Act.

(** C97: activities *)
Theorem C97_activities : forall A, In A ordActs -> forall sv slv D, ordered (oa_ph A) sv slv D ->
  forall ends a0 t p r, D t p r ->
  (** what pureXxx gives for the end members: a0 = exp(mu0/RT) *)
  (forall i t p r, D t p r -> a0 t p i = exp (ends 0%nat t p i / (gasR * t))) ->
  forall i k, (i < o_na (oa_ph A))%nat -> (k < o_nr (oa_ph A))%nat ->
  actO_a A sv a0 i t p r = exp (actO_mu A sv ends i t p r / (gasR * t))
  /\ partialX k (actO_a A sv a0 i) t p r (actO_dx A sv slv a0 i k t p r).
Proof.
  intros A IA sv slv D Or ends a0 t p r Hq Ha i k Hi Hk. set (ph := oa_ph A) in *.
  assert (Iph : In ph ordPhases) by exact (acts_in A IA).
  assert (V : forall r', D t p r' -> actO_a A sv a0 i t p r' = exp (aArg A sv t p r' i / (gasR * t)) * match o_ends ph with None => 1 | Some _ => / a0 t p i end).
  { intros r' Hq'. unfold actO_a. fold ph. destruct (o_ends ph); [|ring]. destruct (Req_EM_T (a0 t p i) 0) as [Z|Z]; [|reflexivity].
    exfalso. rewrite (Ha i t p r' Hq') in Z. pose proof (exp_pos (ends 0%nat t p i / (gasR * t))). lra. }
  pose proof (t_pos ph sv slv D Or t p r Hq) as Tp. assert (gasR <> 0) as Gp by (unfold gasR, Q2R; cbn; lra). split.
  - rewrite (V r Hq). unfold actO_mu. fold ph. destruct (o_ends ph); [|ring]. rewrite (Ha i t p r Hq), <- exp_Ropp, <- exp_plus. f_equal. field. lra.
  - unfold partialX.
    assert (Dn : locally (r k) (fun y => D t p (upd r k y))) by exact (ord_openX _ _ _ _ Or t p r k Hq Hk).
    apply (is_derive_ext_loc (fun y => (match o_ends ph with None => 1 | Some _ => / a0 t p i end) * exp (aArg A sv t p (upd r k y) i / (gasR * t)))).
    { generalize Dn. apply filter_imp. intros y Dy. rewrite (V _ Dy). apply Rmult_comm. }
    assert (S : is_derive (fun y => aArg A sv t p (upd r k y) i) (r k) (aSum A sv slv t p r i k)).
    { unfold aArg. fold ph.
      apply (is_derive_ext_loc (fun y => og ph sv t p (upd r k y) + sum (o_nr ph) (fun j => (Q2R (comp A i j) - upd r k y j) * og_dx ph sv t p (upd r k y) j))).
      { generalize Dn. apply filter_imp. intros y Dy. apply f_equal. apply sumx. intros j Hj. now rewrite (fr_val A IA sv slv D Or t p (upd r k y) i j Dy Hi Hj). }
      eapply is_derive_eq'.
      - apply (is_derive_plus (K:=R_AbsRing) (V:=R_NormedModule)); [exact (g_x ph Iph sv slv D Or t p r Hq k Hk)|].
        apply (sum_derive (r k) (o_nr ph) (fun j y => (Q2R (comp A i j) - upd r k y j) * og_dx ph sv t p (upd r k y) j)
          (fun j => - delta k j * og_dx ph sv t p r j + (Q2R (comp A i j) - r j) * og_dx2 ph sv slv t p r j k)).
        intros j Hj.
        eapply is_derive_eq'.
        + apply (is_derive_mult (K:=R_AbsRing) (fun y => Q2R (comp A i j) - upd r k y j) (fun y => og_dx ph sv t p (upd r k y) j) (r k) (- delta k j) (og_dx2 ph sv slv t p r j k)).
          * unfold upd, delta. rewrite (Nat.eqb_sym k j). destruct (Nat.eqb_spec j k).
            -- auto_derive; auto.
            -- eapply is_derive_eq'; [exact (is_derive_const (K:=R_AbsRing) _ _)|]. cbn. ring.
          * exact (g_xx ph Iph sv slv D Or t p r Hq j k Hj Hk).
          * intros; apply Rmult_comm.
        + unfold plus, mult. cbn. rewrite !upd_same. reflexivity.
      - unfold plus. cbn. unfold aSum. fold ph. rewrite (dfr_val A IA sv slv D Or t p r i k Hq Hi Hk).
        rewrite OrdLimits.sum_add. rewrite (sumx (o_nr ph) (fun j => - delta k j * og_dx ph sv t p r j) (fun j => - (delta k j * og_dx ph sv t p r j))) by (intros; ring).
        rewrite sum_neg, sum_dl by exact Hk.
        rewrite (sum_zer (o_ns ph)).
        2:{ intros j Hj. rewrite (sumx (o_ns ph) _ (fun l => gs A sv t p r i j * (v2 ph sv t p r (o_ss ph) j l * dsdr ph sv slv t p r l k))) by (intros; ring). rewrite sum_mul.
            pose proof (E1 ph (pick _ ph ords0 Iph) sv slv D Or (vR k) (t, p, r) j Hq Hj) as E.
            change (sum (o_ns ph) (fun l => v2 ph sv t p r (o_ss ph) j l * dsdr ph sv slv t p r l k) = - v2 ph sv t p r (o_rs ph) k j) in E. rewrite E. ring. }
        rewrite (sumx (o_nr ph) (fun j => fr A sv t p r i j * v2 ph sv t p r (o_rr ph) j k + _) (fun j => (Q2R (comp A i j) - r j) * og_dx2 ph sv slv t p r j k)).
        2:{ intros j Hj. rewrite (fr_val A IA sv slv D Or t p r i j Hq Hi Hj). rewrite out_dx2.
            rewrite (Q2_Q2s ph (pick _ ph ords0 Iph) sv slv D Or (vR j) (vR k) (t, p, r) Hq). unfold Q2s. rewrite Rmult_plus_distr_l. apply f_equal2; [reflexivity|].
            rewrite <- sum_mul. apply sumx. intros l Hl. change (s1 ph sv slv (vR k) (t, p, r) l) with (dsdr ph sv slv t p r l k). change (OrdProofs.E ph sv (t, p, r) (d2 ph (vR j) (vS l))) with (v2 ph sv t p r (o_rs ph) j l). ring. }
        ring. }
    eapply is_derive_eq'.
    + apply is_derive_scal. apply (is_derive_comp (K:=R_AbsRing) (V:=R_NormedModule) exp (fun y => aArg A sv t p (upd r k y) i / (gasR * t))).
      * apply is_derive_Reals. apply derivable_pt_lim_exp.
      * unfold Rdiv. apply (is_derive_ext (fun y => / (gasR * t) * aArg A sv t p (upd r k y) i)). { intros; apply Rmult_comm. } apply is_derive_scal. exact S.
    + unfold scal. cbn. unfold mult. cbn. rewrite upd_same. unfold actO_dx. rewrite (V r Hq). unfold Rdiv. ring.
Qed.
(** C98: with r the variables that conXxx computes from moles m *)
Theorem C98_potentials_are_partials : forall A, In A ordActs -> forall sv slv D, ordered (oa_ph A) sv slv D -> follows (oa_ph A) sv D ->
  forall ends t p m, let r m j := con_r (oa_con A) j m in
  0 < sumTo (o_na (oa_ph A)) m -> D t p (r m) -> forall i, (i < o_na (oa_ph A))%nat ->
  partialM i (fun m => sumTo (o_na (oa_ph A)) m * gmixO (oa_ph A) sv ends t p (r m)) m (actO_mu A sv ends i t p (r m)).
Proof.
  intros A IA sv slv D Or Fo ends t p m r P Hq i Hi. set (na := o_na (oa_ph A)) in *. unfold partialM.
  assert (T : is_derive (fun y => sumTo na (upd m i y)) (m i) 1).
  { apply (is_derive_ext (fun y => sumTo na m + (y - m i))).
    - intros y. change sumTo with total; unfold na. rewrite <- (Ena A IA). rewrite total_upd.
      destruct (Nat.ltb_spec i (cv_na (oa_con A))) as [_|L]; [reflexivity|]. rewrite (Ena A IA) in L. fold na in L. lia.
    - auto_derive; auto. }
  eapply is_derive_eq'.
  - refine (is_derive_mult (fun y => sumTo na (upd m i y)) (fun y => gmixO (oa_ph A) sv ends t p (r (upd m i y))) (m i) _ _ T _ _); [|intros; apply Rmult_comm].
    apply (gmix_path A IA sv slv D Or ends Fo t p (fun y => r (upd m i y)) (m i) (fun j => if (j <? o_nr (oa_ph A))%nat then (Q2R (comp A i j) - r m j) / sumTo na m else 0)).
    + rewrite upd_same. exact Hq.
    + intros j. apply (dm_form A IA m P i j Hi).
  - transitivity (1 * gmixO (oa_ph A) sv ends t p (r (upd m i (m i))) + sumTo na (upd m i (m i)) *
      sum (o_nr (oa_ph A)) (fun j => (if (j <? o_nr (oa_ph A))%nat then (Q2R (comp A i j) - r m j) / sumTo na m else 0) * gmixO_dx (oa_ph A) sv ends j t p (r (upd m i (m i))))); [reflexivity|].
    rewrite !upd_same. rewrite (mu_form A IA sv slv D Or ends t p (r m) i Hq Hi). rewrite Rmult_1_l. f_equal.
    rewrite <- sum_mul. apply sumx. intros j Hj. destruct (Nat.ltb_spec j (o_nr (oa_ph A))); [|lia]. field. lra.
Qed.
Theorem C98_euler : forall A, In A ordActs -> forall sv slv D, ordered (oa_ph A) sv slv D ->
  forall ends t p m, let r j := con_r (oa_con A) j m in
  0 < sumTo (o_na (oa_ph A)) m -> D t p r ->
  sumTo (o_na (oa_ph A)) (fun i => con_x (oa_con A) i m * actO_mu A sv ends i t p r) = gmixO (oa_ph A) sv ends t p r.
Proof.
  intros A IA sv slv D Or ends t p m r P Hq. set (na := o_na (oa_ph A)) in *. change sumTo with sum in *.
  rewrite (sumx na _ (fun i => m i / sum na m * gmixO (oa_ph A) sv ends t p r
    + / sum na m * (m i * sum (o_nr (oa_ph A)) (fun j => (Q2R (comp A i j) - r j) * gmixO_dx (oa_ph A) sv ends j t p r)))).
  - rewrite OrdLimits.sum_add, sum_mul. unfold r. rewrite (mix_zero A IA m P). rewrite sum_mulr.
    rewrite (sumx na (fun i => m i / sum na m) (fun i => m i * / sum na m)) by reflexivity. rewrite sum_mulr. change (sum na (fun i => m i)) with (sum na m). field. lra.
  - intros i Hi. rewrite (mu_form A IA sv slv D Or ends t p r i Hq Hi).
    rewrite (con_x_frac (oa_con A) (Cc A IA) m i (Pc A IA m P)) by (rewrite (Ena A IA); exact Hi). change total with sumTo; rewrite (Ena A IA). change sumTo with sum. fold na. field. lra.
Qed.
Theorem C98_gibbs_duhem : forall A, In A ordActs -> forall sv slv D, ordered (oa_ph A) sv slv D -> follows (oa_ph A) sv D ->
  forall ends t p (m : R -> nat -> R) s0, let r s j := con_r (oa_con A) j (m s) in
  (forall k, ex_derive (fun s => m s k) s0) ->
  0 < sumTo (o_na (oa_ph A)) (m s0) -> D t p (r s0) ->
  exists dmu, (forall i, (i < o_na (oa_ph A))%nat -> is_derive (fun s => actO_mu A sv ends i t p (r s)) s0 (dmu i))
    /\ sumTo (o_na (oa_ph A)) (fun i => con_x (oa_con A) i (m s0) * dmu i) = 0.
Proof.
  intros A IA sv slv D Or Fo ends t p m s0 r ED P Hq. pose proof (Pc A IA (m s0) P) as P'. pose proof (Cc A IA) as Cc'.
  assert (TD : ex_derive (fun s => total (cv_na (oa_con A)) (m s)) s0).
  { apply (ex_derive_ext (fun s => sumTo (cv_na (oa_con A)) (fun k => 1 * m s k))); [|now apply SolnProofs.lin_diff].
    intros s. transitivity (sumTo (cv_na (oa_con A)) (m s)); [apply sumTo_ext; intros; apply Rmult_1_l|reflexivity]. }
  assert (TN : locally s0 (fun s => 0 < total (cv_na (oa_con A)) (m s))).
  { apply (ex_derive_continuous (K:=R_AbsRing) (V:=R_NormedModule)) in TD. apply TD. apply (open_gt 0). exact P'. }
  assert (RD : forall j, ex_derive (fun s => r s j) s0).
  { intros j. unfold r. destruct (Nat.lt_ge_cases j (cv_nr (oa_con A))) as [L|L].
    - apply (ex_derive_ext_loc (fun s => sumTo (cv_na (oa_con A)) (fun k => Q2R (coef (oa_con A) j k) * m s k) / total (cv_na (oa_con A)) (m s))).
      + revert TN. apply filter_imp. intros s H. symmetry. now apply (con_r_lin (oa_con A) Cc').
      + apply ex_derive_div; [now apply SolnProofs.lin_diff|exact TD|]. apply Rgt_not_eq. exact P'.
    - apply (ex_derive_ext (fun _ => 0)); [intros; symmetry; now apply (con_r_out (oa_con A) Cc')|apply ex_derive_const]. }
  destruct (mu_path A IA sv slv D Or ends Fo t p r s0 (fun j => Derive (fun s => r s j) s0) Hq (fun j => Derive_correct _ _ (RD j))) as (G' & HG).
  eexists. split; [exact HG|]. cbv beta. change sumTo with sum. set (na := o_na (oa_ph A)) in *.
  rewrite (sumx na _ (fun i => / sum na (m s0) * (m s0 i * sum (o_nr (oa_ph A)) (fun j => (Q2R (comp A i j) - con_r (oa_con A) j (m s0)) * G' j)))).
  - rewrite sum_mul, (mix_zero A IA (m s0) P). ring.
  - intros i Hi. rewrite (con_x_frac (oa_con A) Cc' (m s0) i P') by (rewrite (Ena A IA); exact Hi). change total with sumTo; rewrite (Ena A IA). change sumTo with sum. fold na. unfold r, Rdiv. ring.
Qed.
