(** The theorems on phases with ordering parameters speak about something:
    with one ordering parameter, wherever the energy is convex in it and its
    derivative changes sign, the stationary state exists and [ordered] holds;
    melilite above 1600 K is an instance. *)
From Coq Require Import Reals QArith Qreals ZArith NArith Arith List Lia Lra Bool FunctionalExtensionality.
From Coquelicot Require Import Coquelicot.
From Verif Require Import RealTac Sym SymNorm SymPath SolnModel SolnSpec ConProofs LaSpec LuModel LuProps OrdLimits OrdModel OrdData OrdCheck OrdSpec OrdProofs OrdOut OrdProps.
Import List ListNotations.
Local Open Scope R_scope.

(** ** Roots of an increasing function *)
Lemma increasing_root (f d : R -> R) a b : a < b -> (forall s, a <= s <= b -> is_derive f s (d s)) -> (forall s, a <= s <= b -> 0 < d s) ->
  f a < 0 -> 0 < f b -> exists z, a < z < b /\ f z = 0 /\ (forall s, a <= s <= b -> s < z -> f s < 0) /\ (forall s, a <= s <= b -> z < s -> 0 < f s).
Proof.
  intros Hab Df Dp Fa Fb.
  assert (Inc : forall x y, a <= x -> y <= b -> x < y -> f x < f y).
  { intros x y Hx Hy L. destruct (MVT_gen f x y d) as (c & Hc & E).
    - intros u Hu. rewrite Rmin_left, Rmax_right in Hu by lra. apply Df. lra.
    - intros u Hu. rewrite Rmin_left, Rmax_right in Hu by lra. apply continuity_pt_filterlim.
      apply (ex_derive_continuous (K:=R_AbsRing) (V:=R_NormedModule)). exists (d u). apply Df. lra.
    - rewrite Rmin_left, Rmax_right in Hc by lra. pose proof (Dp c ltac:(lra)). nra. }
  set (clip := fun s => Rmax a (Rmin s b)).
  assert (Cl : forall s, a <= clip s <= b). { intros s. unfold clip, Rmax, Rmin. destruct (Rle_dec s b), (Rle_dec a _); lra. }
  assert (Cc : continuity clip).
  { intros s. apply continuity_pt_filterlim. apply filterlim_locally. intros eps. exists eps. intros y Hy.
    change (Rabs (y - s) < eps) in Hy. change (Rabs (clip y - clip s) < eps). revert Hy. unfold clip, Rmax, Rmin, Rabs.
    destruct (Rle_dec y b), (Rle_dec s b); repeat destruct (Rle_dec a _); repeat destruct (Rcase_abs _); intros; try lra; pose proof (cond_pos eps); lra. }
  destruct (IVT (fun s => f (clip s)) a b) as (z & Hz & E).
  - intros s. apply (continuity_pt_comp clip f); [apply Cc|]. apply continuity_pt_filterlim.
    apply (ex_derive_continuous (K:=R_AbsRing) (V:=R_NormedModule)). exists (d (clip s)). apply Df. apply Cl.
  - exact Hab.
  - replace (clip a) with a; auto. unfold clip, Rmax, Rmin. destruct (Rle_dec a b), (Rle_dec a _); lra.
  - replace (clip b) with b; auto. unfold clip, Rmax, Rmin. destruct (Rle_dec b b), (Rle_dec a _); lra.
  - assert (Ez : clip z = z). { unfold clip, Rmax, Rmin. destruct (Rle_dec z b), (Rle_dec a _); lra. }
    rewrite Ez in E. exists z. split; [|split; [exact E|split]].
    + destruct (Req_dec z a) as [->|]; [lra|]. destruct (Req_dec z b) as [->|]; lra.
    + intros s Hs L. rewrite <- E. apply Inc; lra.
    + intros s Hs L. rewrite <- E. apply Inc; lra.
Qed.
Lemma lub_root (f : R -> R) a b z : a < z < b -> f z = 0 -> (forall s, a <= s <= b -> z < s -> 0 < f s) ->
  real (Lub_Rbar (fun s => a <= s <= b /\ f s <= 0)) = z.
Proof.
  intros Hz E P. rewrite (is_lub_Rbar_unique _ (Finite z)); [reflexivity|]. split.
  - intros s [Hs L]. cbn. destruct (Rle_dec s z); auto. pose proof (P s Hs ltac:(lra)). lra.
  - intros B HB. apply HB. split; [lra|]. lra.
Qed.

Section Branch.
Variable ph : ordPhase.
Hypothesis In_ph : In ph ordPhases.
Hypothesis One : o_ns ph = 1%nat.
Hypothesis Mth : o_method ph = LU.
Notation ss := (o_sites ph).
Variables a b : R.
Hypothesis Hab : a < b.
Variable D0 : R -> R -> (nat -> R) -> Prop.
Definition only (s : R) : nat -> R := fun k => match k with O => s | _ => 0 end.
Definition point t p r (s : R) : env := opt t p r (only s).
Definition slope0 t p r s : R := denote ss (point t p r s) (nth1 (o_s1 ph) 0).
Definition curve0 t p r s : R := denote ss (point t p r s) (nth2 (o_ss ph) 0 0).
Hypothesis OpenT : forall t p r, D0 t p r -> locally t (fun y => D0 y p r).
Hypothesis OpenP : forall t p r, D0 t p r -> locally p (fun y => D0 t y r).
Hypothesis OpenX : forall t p r i, D0 t p r -> (i < o_nr ph)%nat -> locally (r i) (fun y => D0 t p (upd r i y)).
Hypothesis Clear : forall t p r s, D0 t p r -> a <= s <= b -> inside ss [0%N] (point t p r s).
Hypothesis Convex : forall t p r s, D0 t p r -> a <= s <= b -> 0 < curve0 t p r s.

Definition inD t p r : Prop := D0 t p r /\ slope0 t p r a < 0 /\ 0 < slope0 t p r b.
Definition root t p r : R := real (Lub_Rbar (fun s => a <= s <= b /\ slope0 t p r s <= 0)).
Definition state t p r : nat -> R := only (root t p r).
Definition facLU (A : mat) : mat := fun i k =>
  let B := set2 A 0 0 0 in (if Req_EM_T (A O O) 0 then B else set2 B 0 0 (1 / A O O)) i k.
Definition solver1 t p r : vec -> vec := solve 1 (facLU (negHess ph state t p r)) (fun k => k).

Let C1 := pick _ ph ords1 In_ph.
Let C2 := pick _ ph ords2 In_ph.
Lemma slope_derive t p r s : D0 t p r -> a <= s <= b -> is_derive (slope0 t p r) s (curve0 t p r s).
Proof.
  intros H Hs. destruct (tab2 ph C2 (vS 0) (vS 0)) as (_ & Dv & _); try (cbn [valid]; lia).
  specialize (Dv (point t p r s) (Clear t p r s H Hs)). eapply is_derive_ext; [|exact Dv]. intros y. unfold slope0. apply denote_ext. intros n.
  unfold set, point, opt. cbn [code]. destruct (N.eqb_spec n (N.of_nat (40 + 0))) as [->|Ne]; [reflexivity|]. destruct n as [|[n|n|]]; try reflexivity;
  (match goal with |- context[N.ltb ?m 40] => destruct (N.ltb_spec m 40) end; [reflexivity|]); unfold only;
  match goal with |- context[(N.to_nat ?m - 40)%nat] => destruct (N.to_nat m - 40)%nat eqn:Em; [exfalso; apply Ne; lia|reflexivity] end.
Qed.
Lemma rootOf t p r : inD t p r -> a < root t p r < b /\ slope0 t p r (root t p r) = 0
  /\ (forall s, a <= s <= b -> s < root t p r -> slope0 t p r s < 0) /\ (forall s, a <= s <= b -> root t p r < s -> 0 < slope0 t p r s).
Proof.
  intros (H & Ha & Hb).
  destruct (increasing_root (slope0 t p r) (curve0 t p r) a b Hab (fun s Hs => slope_derive t p r s H Hs) (fun s Hs => Convex t p r s H Hs) Ha Hb) as (z & Hz & E & P1 & P2).
  assert (Ez : root t p r = z) by (apply lub_root; assumption). rewrite Ez. auto.
Qed.
(** along a line, with s fixed *)
Lemma slope_cont o (q : R * R * (nat -> R)) s : outer ph o -> at3 D0 q -> a <= s <= b ->
  filterlim (fun y => at3 slope0 (mv o y q) s) (locally (co o q)) (locally (at3 slope0 q s)).
Proof.
  intros Oo H Hs. destruct (tab2 ph C2 (vS 0) o) as (_ & Dv & _); [cbn [valid]; lia|apply Oo|].
  pose proof (basics ph (pick _ ph ords0 In_ph)) as (_ & _ & _ & _ & B & _).
  destruct q as [[t p] r]. specialize (Dv (point t p r s) (Clear t p r s H Hs)).
  assert (Ec : point t p r s (code o) = co o (t, p, r)).
  { destruct Oo as [V O]. destruct o; try contradiction; try reflexivity. cbn [code co snd]. unfold point, opt.
    destruct (N.of_nat (2 + i)) as [|n] eqn:En; [lia|]. rewrite <- En. cbn [valid] in V.
    destruct (N.ltb_spec (N.of_nat (2 + i)) 40); [|lia]. destruct n; try (replace (N.to_nat (N.of_nat (2 + i)) - 2)%nat with i by lia; reflexivity). lia. }
  rewrite Ec in Dv.
  assert (Ep : forall y, at3 slope0 (mv o y (t, p, r)) s = denote ss (set (point t p r s) (code o) y) (d1 ph (vS 0))).
  { intros y. destruct Oo as [V O]. unfold at3, slope0. apply denote_ext. intros n. destruct o; try contradiction; cbn [mv fst snd code]; unfold set, point, opt.
    - destruct n; reflexivity.
    - destruct n as [|[n|n|]]; reflexivity.
    - cbn [valid] in V. destruct n as [|n]; [destruct (N.eqb_spec 0 (N.of_nat (2 + i))); [lia|reflexivity]|].
      destruct (N.eqb_spec (N.pos n) (N.of_nat (2 + i))) as [En|Ne].
      + destruct (N.ltb_spec (N.pos n) 40); [|lia].
        unfold upd. replace (N.to_nat (N.pos n) - 2)%nat with i by lia. rewrite Nat.eqb_refl. destruct n; try reflexivity. lia.
      + destruct n; try reflexivity; (match goal with |- context[N.ltb ?m 40] => destruct (N.ltb_spec m 40) end; [|reflexivity]);
        unfold upd; (match goal with |- context[Nat.eqb ?m i] => destruct (Nat.eqb_spec m i) end; [|reflexivity]); exfalso; apply Ne; lia. }
  assert (E0 : at3 slope0 (t, p, r) s = at3 slope0 (mv o (co o (t, p, r)) (t, p, r)) s) by now rewrite mv_id. rewrite E0. clear E0.
  apply (ex_derive_continuous (K:=R_AbsRing) (V:=R_NormedModule) (fun y => at3 slope0 (mv o y (t, p, r)) s)).
  eexists. eapply is_derive_ext; [|exact Dv]. intros y. symmetry. apply Ep.
Qed.
Lemma D0_open o q : outer ph o -> at3 D0 q -> locally (co o q) (fun y => at3 D0 (mv o y q)).
Proof.
  destruct q as [[t p] r]. intros [V O] H. destruct o; try contradiction.
  - exact (OpenT t p r H). - exact (OpenP t p r H). - exact (OpenX t p r i H V).
Qed.
Lemma below o q s c : outer ph o -> at3 D0 q -> a <= s <= b -> at3 slope0 q s < c -> locally (co o q) (fun y => at3 slope0 (mv o y q) s < c).
Proof.
  intros Oo H Hs L. pose proof (slope_cont o q s Oo H Hs) as C. apply (C (fun z => z < c)). exact (open_lt c (at3 slope0 q s) L).
Qed.
Lemma above o q s c : outer ph o -> at3 D0 q -> a <= s <= b -> c < at3 slope0 q s -> locally (co o q) (fun y => c < at3 slope0 (mv o y q) s).
Proof.
  intros Oo H Hs L. pose proof (slope_cont o q s Oo H Hs) as C. apply (C (fun z => c < z)). exact (open_gt c (at3 slope0 q s) L).
Qed.
Lemma inD_open o q : outer ph o -> at3 inD q -> locally (co o q) (fun y => at3 inD (mv o y q)).
Proof.
  intros Oo (H & Ha & Hb). pose proof (D0_open o q Oo H) as L1. pose proof (below o q a 0 Oo H ltac:(lra) Ha) as L2. pose proof (above o q b 0 Oo H ltac:(lra) Hb) as L3.
  generalize (filter_and _ _ L1 (filter_and _ _ L2 L3)). apply filter_imp. intros y (A1 & A2 & A3). repeat split; assumption.
Qed.
Lemma root_cont o q : outer ph o -> at3 inD q -> filterlim (fun y => at3 root (mv o y q)) (locally (co o q)) (locally (at3 root q)).
Proof.
  intros Oo H. apply (proj2 (lim_eps _ _ _)). intros eps He. pose proof (rootOf (fst (fst q)) (snd (fst q)) (snd q) H) as (Z1 & Z2 & Z3 & Z4).
  change (root (fst (fst q)) (snd (fst q)) (snd q)) with (at3 root q) in *. set (z := at3 root q) in *.
  set (lo := Rmax ((a + z) / 2) (z - eps / 2)). set (hi := Rmin ((b + z) / 2) (z + eps / 2)).
  assert (Lo : a <= lo < z /\ z - eps < lo) by (unfold lo, Rmax; destruct (Rle_dec _ _); lra).
  assert (Hi : z < hi <= b /\ hi < z + eps) by (unfold hi, Rmin; destruct (Rle_dec _ _); lra).
  pose proof (below o q lo 0 Oo (proj1 H) ltac:(lra) (Z3 lo ltac:(lra) ltac:(lra))) as L1.
  pose proof (above o q hi 0 Oo (proj1 H) ltac:(lra) (Z4 hi ltac:(lra) ltac:(lra))) as L2.
  generalize (filter_and _ _ (inD_open o q Oo H) (filter_and _ _ L1 L2)). apply filter_imp. intros y (A1 & A2 & A3).
  pose proof (rootOf _ _ _ A1) as (Y1 & Y2 & Y3 & Y4). change (root _ _ _) with (at3 root (mv o y q)) in *. set (w := at3 root (mv o y q)) in *. clearbody w.
  apply Rabs_def1.
  - destruct (Rle_dec w hi); [lra|]. pose proof (Y3 hi ltac:(lra) ltac:(lra)) as Q. unfold at3 in A3. lra.
  - destruct (Rle_dec lo w); [lra|]. pose proof (Y4 lo ltac:(lra) ltac:(lra)) as Q. unfold at3 in A2. lra.
Qed.
Theorem branch_ordered : ordered ph state solver1 inD.
Proof.
  assert (oT : outer ph vT) by (split; exact I). assert (oP : outer ph vP) by (split; exact I).
  assert (oX : forall i, (i < o_nr ph)%nat -> outer ph (vR i)) by (intros; split; [assumption|exact I]).
  constructor.
  - intros t p r H. exact (inD_open vT (t, p, r) oT H).
  - intros t p r H. exact (inD_open vP (t, p, r) oP H).
  - intros t p r i H Hi. exact (inD_open (vR i) (t, p, r) (oX i Hi) H).
  - intros t p r k H Hk. rewrite One in Hk. assert (k = O) by lia. subst k. exact (root_cont vT (t, p, r) oT H).
  - intros t p r k H Hk. rewrite One in Hk. assert (k = O) by lia. subst k. exact (root_cont vP (t, p, r) oP H).
  - intros t p r i k H Hi Hk. rewrite One in Hk. assert (k = O) by lia. subst k. exact (root_cont (vR i) (t, p, r) (oX i Hi) H).
  - intros t p r H. pose proof (rootOf t p r H) as (Z & _). apply Clear; [apply H|lra].
  - intros t p r k H Hk. rewrite One in Hk. assert (k = O) by lia. subst k. apply (rootOf t p r H).
  - intros t p r H. pose proof (rootOf t p r H) as (Z & _). pose proof (Convex t p r (root t p r) (proj1 H) ltac:(lra)) as Cv.
    change (curve0 t p r (root t p r)) with (ev ph state t p r (nth2 (o_ss ph) 0 0)) in Cv. rewrite One.
    exists (fun _ _ => / ev ph state t p r (nth2 (o_ss ph) 0 0)). split; intros i j Hi Hj; assert (i = O) by lia; assert (j = O) by lia; subst; cbn [sum]; unfold delta; cbn [Nat.eqb]; field; lra.
  - intros t p r H. rewrite Mth, One. exists (facLU (negHess ph state t p r)), (fun k => k). split; [|reflexivity].
    exists (fun k => k). unfold decompWith.
    assert (Pk : fst (pack 1 (rowNull 1 (negHess ph state t p r))) = (fun k => k) /\ (snd (pack 1 (rowNull 1 (negHess ph state t p r))) <=? 1)%Z = true).
    { unfold pack. cbn [packFrom Nat.ltb Nat.leb]. destruct (rowNull 1 _ 0); split; reflexivity. }
    destruct Pk as [Pk1 Pk2]. rewrite Pk1, Pk2. split; [reflexivity|]. intros i k. reflexivity.
Qed.
End Branch.

(** ** Melilite *)
Definition mel0 (t p : R) (r : nat -> R) : Prop :=
  1600 < t /\ 19/100 < r O /\ 9/100 < r 2%nat /\ r O + r 2%nat < 2/5 /\ 0 < r 1%nat /\ r O + r 1%nat + r 2%nat < 1.
Definition mela := - (8/100). Definition melb := 18/100.
Lemma mel_in : In oMel ordPhases. Proof. unfold ordPhases. do 5 right. left. reflexivity. Qed.
Lemma q_val n d : Q2R (n # d) = IZR n / IZR (Zpos d). Proof. reflexivity. Qed.
Ltac points t p r s :=
  change (point t p r s 0%N) with t; change (point t p r s 1%N) with p; change (point t p r s 2%N) with (r 0%nat); change (point t p r s 3%N) with (r 1%nat);
  change (point t p r s 4%N) with (r 2%nat); change (point t p r s 40%N) with s.
Ltac numbers := unfold Q2R; cbn [Qnum Qden].
Lemma mel_clear t p r s : mel0 t p r -> mela <= s <= melb -> inside (o_sites oMel) [0%N] (point t p r s).
Proof.
  unfold mel0, mela, melb. intros H Hs. split.
  - intros x Ix. cbn [o_sites oMel oMel_sites In] in Ix.
    repeat (destruct Ix as [<-|Ix]; [cbn [guard raw clear_of]; unfold rawVal; cbn [val]; points t p r s; numbers; lra|]). contradiction.
  - intros v [<-|[]]. points t p r s. lra.
Qed.
Lemma inv_ge x c : 0 < x -> x <= / c -> 0 < c -> c <= / x.
Proof. intros Hx L Hc. rewrite <- (Rinv_inv c). apply Rinv_le_contravar; auto. Qed.
Definition x4 (r : nat -> R) s := r 0%nat - s.
Definition x5 (r : nat -> R) s := r 2%nat + s.
Definition x6 (r : nat -> R) s := (r 0%nat + s) / 2.
Definition x7 (r : nat -> R) s := 1 - (r 0%nat + s) / 2.
Lemma mel_site t p r s : mel0 t p r -> mela <= s <= melb ->
  siteVal (o_sites oMel) (point t p r s) 4 = x4 r s /\ siteVal (o_sites oMel) (point t p r s) 5 = x5 r s
  /\ siteVal (o_sites oMel) (point t p r s) 6 = x6 r s /\ siteVal (o_sites oMel) (point t p r s) 7 = x7 r s.
Proof.
  intros H Hs. pose proof (mel_clear t p r s H Hs) as [Ins _].
  assert (S : forall k, (k < 8)%nat -> siteVal (o_sites oMel) (point t p r s) (N.of_nat k) = rawVal (point t p r s) (raw (nth_site (o_sites oMel) (N.of_nat k)))).
  { intros k Hk. unfold siteVal. apply clampVal_clear. apply Ins. unfold nth_site. rewrite Nnat.Nat2N.id. apply nth_In. exact Hk. }
  Ltac site_is S k t p r s := refine (eq_trans (S k ltac:(lia)) _); unfold nth_site; rewrite Nnat.Nat2N.id;
    cbn [nth o_sites oMel oMel_sites raw]; unfold rawVal; cbn [val]; points t p r s; numbers; unfold x4, x5, x6, x7; field.
  split; [site_is S 4%nat t p r s|]. split; [site_is S 5%nat t p r s|]. split; [site_is S 6%nat t p r s|site_is S 7%nat t p r s].
Qed.
Lemma mel_curve t p r s : mel0 t p r -> mela <= s <= melb ->
  curve0 oMel t p r s = 8.3143 * t * (/ x4 r s + / x5 r s + / (2 * x6 r s) + / (2 * x7 r s)) - 76708.
Proof.
  intros H Hs. pose proof (mel_site t p r s H Hs) as (S4 & S5 & S6 & S7). unfold curve0. change (nth2 (o_ss oMel) 0 0) with (nth2 oMel_d2gds2 0 0).
  unfold nth2, oMel_d2gds2. cbn [nth]. unfold denote. cbn [val]. rewrite S4, S5, S6, S7. points t p r s. numbers.
  unfold mel0, mela, melb in *. unfold x4, x5, x6, x7. field. lra.
Qed.
Lemma mel_slope t p r s : mel0 t p r -> mela <= s <= melb ->
  slope0 oMel t p r s = 8.3143 * t * (- ln (x4 r s) + ln (x5 r s) + ln (x6 r s) - ln (x7 r s)) + 16000 - 76708 * s + 34354 * r 0%nat.
Proof.
  intros H Hs. pose proof (mel_site t p r s H Hs) as (S4 & S5 & S6 & S7). unfold slope0. change (nth1 (o_s1 oMel) 0) with (nth1 oMel_s1 0).
  unfold nth1, oMel_s1. cbn [nth]. unfold denote. cbn [val]. rewrite S4, S5, S6, S7. points t p r s. numbers. lra.
Qed.
Lemma mel_convex t p r s : mel0 t p r -> mela <= s <= melb -> 0 < curve0 oMel t p r s.
Proof.
  intros H Hs. rewrite mel_curve by auto. unfold mel0, mela, melb in *.
  assert (I4 : 5/2 <= / x4 r s) by (apply inv_ge; unfold x4; lra). assert (I5 : 5/2 <= / x5 r s) by (apply inv_ge; unfold x5; lra).
  assert (I6 : 1/2 <= / (2 * x6 r s)) by (apply inv_ge; unfold x6; lra). assert (I7 : 1/2 <= / (2 * x7 r s)) by (apply inv_ge; unfold x7; lra).
  assert (6 * 1600 <= t * (/ x4 r s + / x5 r s + / (2 * x6 r s) + / (2 * x7 r s))); [|lra].
  set (u := / x4 r s + / x5 r s + / (2 * x6 r s) + / (2 * x7 r s)). assert (6 <= u) by (unfold u; lra). clearbody u. nra.
Qed.
Lemma mel_openX t p r i : mel0 t p r -> (i < o_nr oMel)%nat -> locally (r i) (fun y => mel0 t p (upd r i y)).
Proof.
  intros H Hi. change (i < 3)%nat in Hi. unfold mel0 in *.
  assert (G : forall c, c < r i -> locally (r i) (fun y : R => c < y)) by (intros c Hc; exact (open_gt c (r i) Hc)).
  assert (L : forall c, r i < c -> locally (r i) (fun y : R => y < c)) by (intros c Hc; exact (open_lt c (r i) Hc)).
  assert (K : i = 0%nat \/ i = 1%nat \/ i = 2%nat) by lia. destruct K as [K|[K|K]]; subst i; unfold upd; cbn [Nat.eqb].
  - pose proof (G (19/100) ltac:(lra)) as L1. pose proof (L (2/5 - r 2%nat) ltac:(lra)) as L2. pose proof (L (1 - r 1%nat - r 2%nat) ltac:(lra)) as L3.
    generalize (filter_and _ _ L1 (filter_and _ _ L2 L3)). apply filter_imp. intros y (A & B & C). repeat split; lra.
  - pose proof (G 0 ltac:(lra)) as L1. pose proof (L (1 - r 0%nat - r 2%nat) ltac:(lra)) as L2.
    generalize (filter_and _ _ L1 L2). apply filter_imp. intros y (A & B). repeat split; lra.
  - pose proof (G (9/100) ltac:(lra)) as L1. pose proof (L (2/5 - r 0%nat) ltac:(lra)) as L2. pose proof (L (1 - r 0%nat - r 1%nat) ltac:(lra)) as L3.
    generalize (filter_and _ _ L1 (filter_and _ _ L2 L3)). apply filter_imp. intros y (A & B & C). repeat split; lra.
Qed.
Lemma mel_openT t p r : mel0 t p r -> locally t (fun y => mel0 y p r).
Proof.
  intros H. unfold mel0 in *. pose proof (open_gt 1600 t (proj1 H)) as L1. revert L1. apply filter_imp. intros y A. split; [exact A|apply H].
Qed.
Definition melState := state oMel mela melb.
Definition melSolver := solver1 oMel mela melb.
Definition melD := inD oMel mela melb mel0.
Lemma mel_ordered : ordered oMel melState melSolver melD.
Proof.
  apply branch_ordered; try reflexivity.
  - exact mel_in.
  - unfold mela, melb. lra.
  - exact mel_openT.
  - intros t p r H. apply filter_forall. intros y. exact H.
  - exact mel_openX.
  - exact mel_clear.
  - exact mel_convex.
Qed.
(** end members with a constant heat capacity and volume *)
Definition melEnds (q : nat) (t p : R) (i : nat) : R :=
  match q with 0%nat => 240 * (t - t * ln t) + 9 * p | 1%nat => 240 * t + 9 * p | 2%nat => 240 * ln t | 3%nat => 240 | 5%nat => 9 | _ => 0 end.
Lemma mel_ends : endsOK melEnds melD.
Proof.
  assert (P : forall t p r, melD t p r -> 0 < t) by (intros t p r [H _]; unfold mel0 in H; lra).
  constructor; intros t p r i H; pose proof (P t p r H); cbn [melEnds]; try (exact (is_derive_const (K:=R_AbsRing) _ _)); try ring.
  - auto_derive; [lra|field; lra].
  - auto_derive; [lra|field; lra].
  - auto_derive; [auto|ring].
Qed.
Definition melPoint : nat -> R := fun k => match k with 0%nat => 1/5 | 1%nat => 3/10 | 2%nat => 1/10 | _ => 0 end.
Lemma ln_ratio a b c d : 0 < a -> 0 < b -> 0 < c -> 0 < d -> - ln a + ln b + ln c - ln d = ln (b * c / (a * d)).
Proof.
  intros. unfold Rdiv. rewrite ln_mult, (ln_mult b c), ln_Rinv, (ln_mult a d) by (try apply Rinv_0_lt_compat; nra). ring.
Qed.
Lemma mel_point : melD 1700 1 melPoint.
Proof.
  assert (H0 : mel0 1700 1 melPoint) by (unfold mel0, melPoint; lra).
  split; [exact H0|]. split.
  - rewrite mel_slope by (auto; unfold mela, melb; lra). unfold x4, x5, x6, x7, melPoint, mela. rewrite ln_ratio by lra.
    match goal with |- context [ln ?u] => replace u with (3 / 658) by field end.
    assert (L : ln (3 / 658) < -3); [|lra].
    rewrite <- (ln_exp (-3)). apply ln_increasing; [lra|]. apply Rlt_le_trans with (/ 27); [lra|].
    replace (-3) with (- (3)) by ring. rewrite exp_Ropp. apply Rinv_le_contravar; [apply exp_pos|].
    replace 3 with (1 + 1 + 1) by ring. rewrite !exp_plus. pose proof exp_le_3 as E. pose proof (exp_pos 1). nra.
  - rewrite mel_slope by (auto; unfold mela, melb; lra). unfold x4, x5, x6, x7, melPoint, melb. rewrite ln_ratio by lra.
    match goal with |- context [ln ?u] => replace u with (266 / 81) by field end.
    assert (L : 0 <= ln (266 / 81)); [|lra].
    rewrite <- ln_1. apply Rlt_le, ln_increasing; lra.
Qed.
(** the hypotheses of C93-C96 hold for melilite around 1700 K *)
Theorem C93_case : exists ph sv slv D ends t p r, In ph ordPhases /\ ordered ph sv slv D /\ endsOK ends D /\ D t p r /\ (0 < o_nr ph)%nat /\ (0 < o_ns ph)%nat.
Proof.
  exists oMel, melState, melSolver, melD, melEnds, 1700, 1, melPoint.
  split; [exact mel_in|]. split; [exact mel_ordered|]. split; [exact mel_ends|]. split; [exact mel_point|]. cbn. lia.
Qed.
