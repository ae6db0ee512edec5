(** The theorems C97, C98 speak about something: melilite above 1600 K
    satisfies [follows] as well. *)
From Coq Require Import Reals QArith Qreals ZArith NArith Arith List Lia Lra Bool FunctionalExtensionality.
From Coquelicot Require Import Coquelicot.
From Verif Require Import RealTac Sym SymNorm SymPath SolnModel SolnSpec ConData ConProofs LaSpec LuModel LuProps OrdLimits OrdModel OrdData OrdCheck OrdSpec OrdProofs OrdOut OrdProps OrdCase
  OrdActModel OrdActData OrdActCheck OrdActSpec OrdActProps.
Import List ListNotations.
Local Open Scope R_scope.

Section Follow.
Variables (t p : R) (rr : R -> nat -> R) (y0 : R).
Hypothesis Rc : forall j, filterlim (fun y => rr y j) (locally y0) (locally (rr y0 j)).
Lemma lim_ln (f : R -> R) l : 0 < l -> filterlim f (locally y0) (locally l) -> filterlim (fun y => ln (f y)) (locally y0) (locally (ln l)).
Proof.
  intros Hl H. apply (filterlim_comp _ _ _ f ln _ _ _ H). apply (ex_derive_continuous (K:=R_AbsRing) (V:=R_NormedModule) ln). exists (/ l). apply is_derive_Reals. now apply derivable_pt_lim_ln.
Qed.
Lemma lim_c (c : R) : filterlim (fun _ : R => c) (locally y0) (locally c). Proof. apply filterlim_const. Qed.
Lemma lim_p (f g : R -> R) a b : filterlim f (locally y0) (locally a) -> filterlim g (locally y0) (locally b) -> filterlim (fun y => f y + g y) (locally y0) (locally (a + b)).
Proof. intros F G. eapply filterlim_comp_2; [exact F|exact G|]. exact (filterlim_plus (K:=R_AbsRing) (V:=R_NormedModule) a b). Qed.
Lemma lim_m (f g : R -> R) a b : filterlim f (locally y0) (locally a) -> filterlim g (locally y0) (locally b) -> filterlim (fun y => f y * g y) (locally y0) (locally (a * b)).
Proof. intros F G. eapply filterlim_comp_2; [exact F|exact G|]. exact (filterlim_mult (K:=R_AbsRing) a b). Qed.
Lemma lim_o (f : R -> R) a : filterlim f (locally y0) (locally a) -> filterlim (fun y => - f y) (locally y0) (locally (- a)).
Proof. intros F. eapply filterlim_comp; [exact F|]. exact (filterlim_opp (K:=R_AbsRing) (V:=R_NormedModule) a). Qed.
Lemma lim_s (f g : R -> R) a b : filterlim f (locally y0) (locally a) -> filterlim g (locally y0) (locally b) -> filterlim (fun y => f y - g y) (locally y0) (locally (a - b)).
Proof. intros F G. apply lim_p; [exact F|now apply lim_o]. Qed.
Lemma lt_near (f : R -> R) l c : filterlim f (locally y0) (locally l) -> l < c -> locally y0 (fun y => f y < c).
Proof. intros F L. apply (F (fun z => z < c)). exact (open_lt c l L). Qed.
Lemma gt_near (f : R -> R) l c : filterlim f (locally y0) (locally l) -> c < l -> locally y0 (fun y => c < f y).
Proof. intros F L. apply (F (fun z => c < z)). exact (open_gt c l L). Qed.
Lemma mel0_near : mel0 t p (rr y0) -> locally y0 (fun y => mel0 t p (rr y)).
Proof.
  intros (H1 & H2 & H3 & H4 & H5 & H6).
  pose proof (gt_near _ _ _ (Rc 0%nat) H2) as L1. pose proof (gt_near _ _ _ (Rc 2%nat) H3) as L2. pose proof (lt_near _ _ _ (lim_p _ _ _ _ (Rc 0%nat) (Rc 2%nat)) H4) as L3.
  pose proof (gt_near _ _ _ (Rc 1%nat) H5) as L4. pose proof (lt_near _ _ _ (lim_p _ _ _ _ (lim_p _ _ _ _ (Rc 0%nat) (Rc 1%nat)) (Rc 2%nat)) H6) as L5.
  generalize (filter_and _ _ L1 (filter_and _ _ L2 (filter_and _ _ L3 (filter_and _ _ L4 L5)))). apply filter_imp.
  intros y (A1 & A2 & A3 & A4 & A5). unfold mel0. repeat split; assumption.
Qed.
Lemma mel_slope_cont s : mel0 t p (rr y0) -> mela <= s <= melb -> filterlim (fun y => slope0 oMel t p (rr y) s) (locally y0) (locally (slope0 oMel t p (rr y0) s)).
Proof.
  intros H Hs. rewrite mel_slope by auto.
  apply (filterlim_ext_loc (fun y => 8.3143 * t * (- ln (x4 (rr y) s) + ln (x5 (rr y) s) + ln (x6 (rr y) s) - ln (x7 (rr y) s)) + 16000 - 76708 * s + 34354 * rr y 0%nat)).
  { generalize (mel0_near H). apply filter_imp. intros y Hy. symmetry. now apply mel_slope. }
  unfold mel0, mela, melb in *.
  apply lim_p; [|apply lim_m; [apply lim_c|apply Rc]]. apply lim_s; [|apply lim_c]. apply lim_p; [|apply lim_c]. apply lim_m; [apply lim_c|].
  apply lim_s; [apply lim_p; [apply lim_p; [apply lim_o|]|]|]; (apply lim_ln; [unfold x4, x5, x6, x7; lra|]); unfold x4, x5, x6, x7.
  - apply lim_s; [apply Rc|apply lim_c].
  - apply lim_p; [apply Rc|apply lim_c].
  - apply lim_m; [apply lim_p; [apply Rc|apply lim_c]|apply lim_c].
  - apply lim_s; [apply lim_c|]. apply lim_m; [apply lim_p; [apply Rc|apply lim_c]|apply lim_c].
Qed.
Lemma melD_near : melD t p (rr y0) -> locally y0 (fun y => melD t p (rr y)).
Proof.
  intros (H & Ha & Hb). assert (Q : mela <= mela <= melb /\ mela <= melb <= melb) by (unfold mela, melb; lra). destruct Q as [Qa Qb].
  pose proof (mel0_near H) as L1. pose proof (lt_near _ _ _ (mel_slope_cont mela H Qa) Ha) as L2. pose proof (gt_near _ _ _ (mel_slope_cont melb H Qb) Hb) as L3.
  generalize (filter_and _ _ L1 (filter_and _ _ L2 L3)). apply filter_imp. intros y (A1 & A2 & A3). split; [exact A1|]. split; assumption.
Qed.
Lemma mel_rootOf r : melD t p r -> let z := root oMel mela melb t p r in mela < z < melb /\ slope0 oMel t p r z = 0
  /\ (forall s, mela <= s <= melb -> s < z -> slope0 oMel t p r s < 0) /\ (forall s, mela <= s <= melb -> z < s -> 0 < slope0 oMel t p r s).
Proof.
  intros H. apply (rootOf oMel mel_in eq_refl mela melb) with (D0 := mel0); auto.
  - unfold mela, melb; lra. - exact mel_clear. - exact mel_convex.
Qed.
Lemma mel_root_near : melD t p (rr y0) -> filterlim (fun y => root oMel mela melb t p (rr y)) (locally y0) (locally (root oMel mela melb t p (rr y0))).
Proof.
  intros H. apply (proj2 (lim_eps (locally y0) _ _)). intros eps He. pose proof (mel_rootOf (rr y0) H) as (Z1 & Z2 & Z3 & Z4). set (z := root oMel mela melb t p (rr y0)) in *.
  set (lo := Rmax ((mela + z) / 2) (z - eps / 2)). set (hi := Rmin ((melb + z) / 2) (z + eps / 2)).
  assert (Lo : mela <= lo < z /\ z - eps < lo) by (unfold lo, Rmax; destruct (Rle_dec _ _); lra).
  assert (Hi : z < hi <= melb /\ hi < z + eps) by (unfold hi, Rmin; destruct (Rle_dec _ _); lra).
  pose proof (lt_near _ _ _ (mel_slope_cont lo (proj1 H) ltac:(lra)) (Z3 lo ltac:(lra) ltac:(lra))) as L1.
  pose proof (gt_near _ _ _ (mel_slope_cont hi (proj1 H) ltac:(lra)) (Z4 hi ltac:(lra) ltac:(lra))) as L2.
  generalize (filter_and _ _ (melD_near H) (filter_and _ _ L1 L2)). apply filter_imp. intros y (A1 & A2 & A3).
  pose proof (mel_rootOf _ A1) as (Y1 & Y2 & Y3 & Y4). set (w := root oMel mela melb t p (rr y)) in *. clearbody w.
  apply Rabs_def1.
  - destruct (Rle_dec w hi); [lra|]. pose proof (Y3 hi ltac:(lra) ltac:(lra)) as Q. lra.
  - destruct (Rle_dec lo w); [lra|]. pose proof (Y4 lo ltac:(lra) ltac:(lra)) as Q. lra.
Qed.
End Follow.
Lemma mel_follows : follows oMel melState melD.
Proof.
  intros t p rr y0 H Rc. split; [now apply melD_near|]. intros k Hk. change (o_ns oMel) with 1%nat in Hk. assert (k = O) by lia. subst k.
  exact (mel_root_near t p rr y0 Rc H).
Qed.
Lemma mel_act : In aMel ordActs. Proof. unfold ordActs. do 5 right. left. reflexivity. Qed.
(** moles whose composition is [melPoint] *)
Definition melMoles : nat -> R := fun k => match k with 0%nat => 4/10 | 1%nat => 2/10 | 2%nat => 3/10 | _ => 1/10 end.
Theorem C97_case : exists A sv slv D (ends : nat -> R -> R -> nat -> R) (a0 : R -> R -> nat -> R) t p m, In A ordActs /\ ordered (oa_ph A) sv slv D /\ follows (oa_ph A) sv D
  /\ (forall i t p r, D t p r -> a0 t p i = exp (ends 0%nat t p i / (gasR * t)))
  /\ 0 < sumTo (o_na (oa_ph A)) m /\ D t p (fun j => con_r (oa_con A) j m) /\ o_ends (oa_ph A) <> None.
Proof.
  exists aMel, melState, melSolver, melD, melEnds, (fun t p i => exp (melEnds 0 t p i / (gasR * t))), 1700, 1, melMoles.
  split; [exact mel_act|]. split; [exact mel_ordered|]. split; [exact mel_follows|]. split; [reflexivity|].
  assert (P : 0 < sumTo (o_na (oa_ph aMel)) melMoles) by (cbn; lra). split; [exact P|]. split; [|discriminate].
  replace (fun j => con_r (oa_con aMel) j melMoles) with melPoint.
  - exact mel_point.
  - apply functional_extensionality. intros j. destruct (Nat.lt_ge_cases j 3) as [L|L].
    + rewrite (r_form aMel mel_act melMoles P j L). assert (K : j = 0%nat \/ j = 1%nat \/ j = 2%nat) by lia.
      destruct K as [K|[K|K]]; subst j; cbn -[Q2R]; rewrite ?q_val; cbn; field.
    + rewrite (con_r_out _ (Cc aMel mel_act)) by exact L. destruct j as [|[|[|j]]]; try lia. reflexivity.
Qed.
