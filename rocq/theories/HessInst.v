(** C89-C91 for the liquid of the MELTS and pMELTS modes, and cases meeting the hypotheses. *)
From Coq Require Import Reals List Lia Lra Bool Arith FunctionalExtensionality.
From Coquelicot Require Import Coquelicot.
From Verif Require Import MassModel MassSpec MassProofs RealTac LiqModel LiqProofs LiqProps StepModel StepProofs HessModel HessSpec HessPhase HessProps HessLiq.
Import List ListNotations.
Open Scope R_scope.

(** a substance of constant heat capacity and volume *)
Definition simple (h c v : R) : Std :=
  mkStd (fun t p => h + c * (t - t * ln t) + v * p) (fun t p => h + c * t + v * p) (fun t p => c * ln t) (fun _ _ => c) (fun _ _ => 0)
        (fun _ _ => v) (fun _ _ => 0) (fun _ _ => 0).
Ltac kc := apply (is_derive_const (V := R_NormedModule)).
Lemma simple_ok h c v : stdOK (simple h c v).
Proof.
  constructor; intros t p Ht; cbn [simple stG stH stS stC stCt stV stVp stVpp]; try kc.
  - ring.
  - auto_derive; [lra|]. match goal with |- ?a = ?b => change (@eq R a b) end. field. lra.
  - auto_derive; [lra|]. match goal with |- ?a = ?b => change (@eq R a b) end. field. lra.
  - auto_derive; [exact I|]. rr.
Qed.

(** Whatever the parameters read from the tables, the liquid of liquid_v34.c meets what C89, C90 and C91 ask of a solution. *)
Theorem C90_liquid parH parS parV :
  solutionOK (liqMixing NR (byPair parH) (byPair parS) (byPair parV)) 19 (liqDomain NR).
Proof. apply (liq_solution NR); [| | |unfold NR; lia]; intros i j Hi Hj; apply byPair_sym; auto. Qed.

(** Two solids of a solution of two components and a pure solid beside a liquid of three components, one of them absent. *)
Definition hTab : Tab :=
  mkTab 3 4 3 (fun i => match i with O | 3%nat => true | _ => false end) (fun i => match i with O => 2 | _ => 1 end)%nat
    (fun _ _ => 0) (fun _ _ => 0) (fun _ _ => 0) (fun _ _ => 0) (fun _ => 1) (fun _ => 1) (fun _ => 0) (fun _ => 0) (fun _ => false).
Definition hLiq (j : nat) : R := match j with O => 1 | 2%nat => 2 | _ => 0 end.
Definition hSol (i n : nat) : R :=
  match i, n with
  | O, O => 3 | 1%nat, O => 1 | 2%nat, O => 2
  | O, _ => 3.5 | 1%nat, _ => 3 | 2%nat, _ => 0.5
  | _, _ => 5 end.
Definition hSt : St :=
  mkSt true 1 (fun _ => hLiq) (fun i => match i with O => 2 | 3 => 1 | _ => 0 end)%nat hSol (fun _ => 1) (fun _ _ => 0) (fun _ => 0) 0 0 false.
Definition hW (i j : nat) : R := 1000.
Definition hX (n : nat) : Mixing := liqMixing n hW (fun _ _ => 1) (fun _ _ => 0.1).
Definition hStd (i : nat) : Std := simple (- INR i) (INR i + 1) 2.
Definition hDS (i : nat) (m : nat -> R) : Prop := liqDomain 1 m.

Lemma h_lay : layout hTab.
Proof.
  intros i Hi Ph. cbn [hTab npc] in Hi. destruct i as [|[|[|[|i]]]]; cbn in Ph; try discriminate; try lia; cbn [hTab na npc isPhase]; split; try lia.
  intros _. split; [lia|]. intros j Hj. destruct j as [|[|[|j]]]; try lia; reflexivity.
Qed.
Lemma h_cnt : counts hTab hSt.
Proof.
  split; [|split]; intros i; cbn [hTab hSt isPhase na nSol npc].
  - destruct i as [|[|[|[|i]]]]; auto; discriminate.
  - destruct i as [|[|[|[|i]]]]; auto; discriminate.
  - intros Hi. destruct i as [|[|[|[|i]]]]; auto; lia.
Qed.
Lemma h_sym n c : symmetric n (fun _ _ => c).
Proof. intros i j _ _. reflexivity. Qed.
Lemma h_X n : (1 <= n)%nat -> solutionOK (hX n) (S n) (liqDomain n).
Proof. intros H. apply liq_solution; auto; apply h_sym. Qed.
Lemma h_sols i : (i < npc hTab)%nat -> isPhase hTab i = true -> na hTab i <> 1%nat -> solutionOK (hX 1) (na hTab i) (hDS i).
Proof. intros _ _ N. destruct i as [|i]; cbn in N; [|lia]. apply h_X. lia. Qed.
Lemma h_inL : hasLiquid hSt = true -> forall nl, (nl < nLiq hSt)%nat -> liqDomain 2 (liqC hSt nl).
Proof. intros _ nl _. cbn [hSt liqC]. split; [|cbn; lra]. intros i Hi. destruct i as [|[|[|i]]]; cbn; lra. Qed.
Lemma h_inS i n : (n < nSol hSt i)%nat -> na hTab i <> 1%nat ->
  hDS i (fun j => solC hSt (i + 1 + j)%nat n) /\ solC hSt i n = sum (na hTab i) (fun j => solC hSt (i + 1 + j)%nat n).
Proof.
  intros Hn N. destruct i as [|i]; cbn in N; [|lia]. cbn [hSt nSol] in Hn. cbn [hSt solC hTab na sum Nat.add].
  destruct n as [|[|n]]; try lia; cbn [hSol]; (split; [split; [intros j Hj; destruct j as [|[|j]]; try lia; cbn [hSol Nat.add]; lra|cbn [hSol]; lra]|lra]).
Qed.
Lemma h_vars : conVars hTab true hSt = [VLiq 0 0; VLiq 0 2; VSol 1 0; VSol 2 0; VSol 1 1; VSol 2 1; VSol 3 0].
Proof.
  unfold conVars, conLiquids. cbn [hTab nlc npc hSt nLiq seq flat_map conSolids nSol na Nat.ltb Nat.leb Nat.eqb Nat.add app].
  unfold onlyPresent, present. cbn [hSt liqC solC hLiq hSol].
  repeat match goal with |- context[Req_EM_T ?a ?b] => destruct (Req_EM_T a b); [try (exfalso; lra)|try (exfalso; lra)] end. reflexivity.
Qed.
Definition hM (md : Mode) : Mats := gradHess hTab md 1500 1000 (hX 2) hStd (fun _ => hX 1) hStd true 8 hSt.
Definition hPot (md : Mode) : R -> R -> St -> R := potential hTab (hX 2) hStd (fun _ => hX 1) hStd md true.

Theorem C89_witness : solutionOK (hX 2) 3 (liqDomain 2) /\ liqDomain 2 hLiq /\ there 3 hLiq 2 /\ ~ there 3 hLiq 1 /\
  is_derive (fun y => extensive (hX 2) 3 (xG (hX 2) 1500 1000) (upd hLiq 2 y)) 2
    (extGrad 2 (xG (hX 2) 1500 1000 (xR (hX 2) hLiq)) (xGx (hX 2) 1500 1000 (xR (hX 2) hLiq)) (sum 3 hLiq) (xDr (hX 2) hLiq) 2).
Proof.
  assert (OK : solutionOK (hX 2) 3 (liqDomain 2)) by (apply h_X; lia). assert (D : liqDomain 2 hLiq) by (apply (h_inL eq_refl 0%nat); cbn; lia).
  assert (T : there 3 hLiq 2) by (split; [lia|cbn; lra]).
  split; [exact OK|split; [exact D|split; [exact T|split]]]; [intros [_ H]; apply H; reflexivity|].
  refine (C89_gradient (hX 2) 3 (liqDomain 2) (xG (hX 2) 1500 1000) (xGx (hX 2) 1500 1000) _ hLiq 2 D T). apply (sG _ _ _ OK). lra.
Qed.
Theorem C90_witness : layout hTab /\ counts hTab hSt /\ conVars hTab true hSt = [VLiq 0 0; VLiq 0 2; VSol 1 0; VSol 2 0; VSol 1 1; VSol 2 1; VSol 3 0] /\
  is_derive (fun x => Derive (fun y => hPot Plain 1500 1000 (setVar (VLiq 0 0) y (setVar (VLiq 0 2) x hSt))) 1) 2 (mE (hM Plain) 0 1) /\
  is_derive (fun x => Derive (fun y => hPot Plain 1500 1000 (setVar (VSol 2 1) y (setVar (VSol 1 1) x hSt))) 0.5) 3 (mE (hM Plain) 5 4).
Proof.
  split; [exact h_lay|split; [exact h_cnt|split; [exact h_vars|]]].
  assert (L : (7 < 8)%nat) by lia.
  assert (K : forall r c v w, nth_error (conVars hTab true hSt) r = Some v -> nth_error (conVars hTab true hSt) c = Some w ->
     is_derive (fun x => Derive (fun y => hPot Plain 1500 1000 (setVar v y (setVar w x hSt))) (valVar (setVar w x hSt) v)) (valVar hSt w) (mE (hM Plain) r c)).
  { exact (C90_hessian hTab 1500 1000 (hX 2) hStd (fun _ => hX 1) hStd 8 (liqDomain 2) hDS h_lay ltac:(lra) (h_X 2 ltac:(lia)) h_sols (fun j _ => simple_ok _ _ _) (fun i _ => simple_ok _ _ _)
      hSt h_cnt h_inL h_inS). }
  rewrite h_vars in K. split.
  - exact (K 0%nat 1%nat _ _ eq_refl eq_refl).
  - exact (K 5%nat 4%nat _ _ eq_refl eq_refl).
Qed.
Theorem C91_witness md : md <> Plain -> layout hTab /\ counts hTab hSt /\ length (conVars hTab true hSt) = 7%nat /\
  is_derive (fun x => potAt hTab 1500 1000 (hX 2) hStd (fun _ => hX 1) hStd hSt md x hSt) (lastValue 1500 1000 md) (- mB (hM md) 7) /\
  is_derive (fun y => hPot md 1500 1000 (setVar (VSol 3 0) y hSt)) 5 (- mB (hM md) 6).
Proof.
  intros Hm. split; [exact h_lay|split; [exact h_cnt|split; [now rewrite h_vars|]]]. split.
  - exact (C91_last_gradient hTab 1500 1000 (hX 2) hStd (fun _ => hX 1) hStd 8 (liqDomain 2) hDS h_lay ltac:(lra) (h_X 2 ltac:(lia)) h_sols (fun j _ => simple_ok _ _ _) (fun i _ => simple_ok _ _ _)
      hSt h_cnt h_inL h_inS ltac:(change (hasLiquid hSt) with true; rewrite h_vars; cbn; lia) md Hm).
  - refine (C91_gradient hTab 1500 1000 (hX 2) hStd (fun _ => hX 1) hStd 8 (liqDomain 2) hDS h_lay ltac:(lra) (h_X 2 ltac:(lia)) h_sols (fun j _ => simple_ok _ _ _) (fun i _ => simple_ok _ _ _)
      hSt h_cnt h_inL h_inS ltac:(change (hasLiquid hSt) with true; rewrite h_vars; cbn; lia) md Hm 6 (VSol 3 0) _).
    change (hasLiquid hSt) with true. now rewrite h_vars.
Qed.
