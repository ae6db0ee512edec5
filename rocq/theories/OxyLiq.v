(** C166 for the liquid of the MELTS and pMELTS modes with its own oxygen potential, muO2Liq_v34. *)
From Coq Require Import Reals List Lia Lra Bool Arith.
From Coquelicot Require Import Coquelicot.
From Verif Require Import MassModel MassSpec MassProofs RealTac RedoxModel RedoxProps LiqModel LiqProofs LiqProps StepModel StepProofs HessModel HessSpec HessPhase HessProps HessLiq HessInst OxyModel OxySpec OxyProps.
Import List ListNotations.
Open Scope R_scope.

Lemma solution_sub X n (D D' : (nat -> R) -> Prop) : solutionOK X n D -> (forall m, D' m -> D m) ->
  (forall m k, D' m -> there n m k -> locally (m k) (fun x => D' (upd m k x))) -> solutionOK X n D'.
Proof.
  intros K S O. destruct K. constructor; auto.
  - intros t p Ht. destruct (sG t p Ht) as [A B]. split; [intros m k Dm; apply A; auto|intros m k i Dm; apply B; auto].
  - intros t p Ht. destruct (sS t p Ht) as [A B]. split; [intros m k Dm; apply A; auto|intros m k i Dm; apply B; auto].
  - intros t p Ht. destruct (sV t p Ht) as [A B]. split; [intros m k Dm; apply A; auto|intros m k i Dm; apply B; auto].
  - intros t p Ht m k Dm. apply sC; auto.
  - intros t p Ht m k Dm. apply sVp; auto.
Qed.

Section Liquid.
Variable tab : Tab.
Variable coeff : nat -> R.
Variables iF2 iF3 : nat.
Hypothesis Dif : iF2 <> iF3.
Hypothesis L2 : (iF2 < nc tab)%nat.
Hypothesis L3 : (iF3 < nc tab)%nat.
(** oxygen.cur.g, which does not depend on the pressure *)
Variable g : R -> R.
(** muO2Liq, then 620 *)
Definition kressO : OxyL := mkOxyL (fun t p m => muO2 tab coeff iF2 iF3 false t p m + g t) (muO2_dm tab coeff iF2 iF3) (muO2_d2m tab coeff iF2 iF3)
  (muO2_dp tab iF2 iF3 false) (fun t p m k => muO2_d2mp t p m k) (muO2_d2p2 tab iF2 iF3 false).
Variable D : (nat -> R) -> Prop.
Hypothesis Dopen : forall m k, D m -> there (nlc tab) m k -> locally (m k) (fun x => D (upd m k x)).
(** amounts the liquid may have, with both kinds of iron *)
Definition ironD (m : nat -> R) : Prop := D m /\ hasIron tab iF2 iF3 m.
Lemma iron_open m k : ironD m -> there (nlc tab) m k -> locally (m k) (fun x => ironD (upd m k x)).
Proof.
  intros [A B] T. apply filter_and; [now apply Dopen|]. destruct (hasIron_near tab iF2 iF3 m k (proj1 T) B) as [eps He].
  exists eps. intros y Hy. apply He. exact Hy.
Qed.
Lemma kress_ok : oxyOK kressO (nlc tab) ironD.
Proof.
  constructor; cbn [kressO oMu oM oMM oP oMP oPP].
  - exact iron_open.
  - intros t p m k Ht [_ I] [Hk _]. pose proof (C77_dm tab coeff iF2 iF3 false Dif L2 L3 t p m k Hk I) as K.
    refine (is_derive_eq _ _ _ _ (is_derive_plus _ _ _ _ _ K (is_derive_const (V := R_NormedModule) (g t) (m k))) _).
    apply Rplus_0_r.
  - intros t p m j k Ht [_ I] [Hj _] [Hk _]. exact (C77_d2m tab coeff iF2 iF3 Dif L2 L3 t p m j k Hj Hk I).
  - intros t p m Ht [_ I]. pose proof (C77_dp tab coeff iF2 iF3 false Dif L2 L3 t p m Ht (or_introl eq_refl) I) as K.
    refine (is_derive_eq _ _ _ _ (is_derive_plus _ _ _ _ _ K (is_derive_const (V := R_NormedModule) (g t) p)) _).
    apply Rplus_0_r.
  - intros t p m Ht [_ I]. exact (C77_d2p2 tab iF2 iF3 false Dif L2 L3 t p m Ht (or_introl eq_refl) I).
  - intros t p m k Ht [_ I] [Hk _]. destruct (hasIron_near tab iF2 iF3 m k Hk I) as [eps He].
    apply (is_derive_ext_loc (fun _ => muO2_dp tab iF2 iF3 false t p m)); [|kc].
    exists eps. intros y Hy. unfold muO2_dp. rewrite (hasIron_none tab iF2 iF3 Dif L2 L3 m I). pose proof (hasIron_none tab iF2 iF3 Dif L2 L3 _ (He y Hy)) as E. rewrite E. reflexivity.
Qed.
End Liquid.
(** every hypothesis of C166 on the liquid is met; what is left is the solids *)
Section Melts.
Variable tab : Tab.
Hypothesis Nlc : nlc tab = 19%nat.
Variable coeff : nat -> R.
Variables iF2 iF3 : nat.
Hypothesis Dif : iF2 <> iF3.
Hypothesis L2 : (iF2 < nc tab)%nat.
Hypothesis L3 : (iF3 < nc tab)%nat.
Variable g : R -> R.
Variables parH parS parV : nat -> R.
Notation liqX := (liqMixing NR (byPair parH) (byPair parS) (byPair parV)).
Notation ol := (kressO tab coeff iF2 iF3 g).
Variable md : Mode.
Variables t p : R.
Variable liqStd : nat -> Std.
Variable solX : nat -> Mixing.
Variable solStd : nat -> Std.
Variable conCols : nat.
Variables nuL nuS : nat -> R.
Variable oe : OxyE.
Variable os : OxyS.
Variable DS : nat -> (nat -> R) -> Prop.
Hypothesis Md : md = Plain \/ md = Isochoric.
Hypothesis Lay : layout tab.
Hypothesis Ht : 0 < t.
Hypothesis OKS : forall i, (i < npc tab)%nat -> isPhase tab i = true -> na tab i <> 1%nat -> solutionOK (solX i) (na tab i) (DS i).
Hypothesis StdL : forall j, (j < nlc tab)%nat -> stdOK (liqStd j).
Hypothesis StdS : forall i, (i < npc tab)%nat -> stdOK (solStd i).
Variable s : St.
Hypothesis Cnt : counts tab s.
Hypothesis HasL : hasLiquid s = true.
Hypothesis One : nLiq s = 1%nat.
(** no negative amounts, silica, ferrous and ferric iron *)
Hypothesis Pos : forall j, (j < 19)%nat -> 0 <= liqC s 0 j.
Hypothesis Silica : 0 < liqC s 0 0.
Hypothesis Iron : 0 < mOx tab (liqC s 0) iF2 /\ 0 < mOx tab (liqC s 0) iF3 /\ 0 < allFeO tab iF2 iF3 (mOx tab (liqC s 0)).
Hypothesis InS : forall i n, (n < nSol s i)%nat -> na tab i <> 1%nat -> DS i (fun j => solC s (i + 1 + j)%nat n) /\ solC s i n = sum (na tab i) (fun j => solC s (i + 1 + j)%nat n).
Notation vs := (conVars tab true s).
Hypothesis Cols : conCols = (length vs + (if imposedMode md then 1 else 0))%nat.
Notation U := (openPotential tab nuL nuS liqX liqStd solX solStd md (oMu ol)).
Notation MO := (gradHessO tab md t p conCols nuL nuS ol oe os liqX liqStd solX solStd true s).
Notation DL := (ironD tab iF2 iF3 (liqDomain NR)).
Lemma liq_open m k : liqDomain NR m -> there (nlc tab) m k -> locally (m k) (fun x => liqDomain NR (upd m k x)).
Proof. rewrite Nlc. apply (sOpen _ _ _ (C90_liquid parH parS parV)). Qed.
Lemma liq_ok : solutionOK liqX (nlc tab) DL.
Proof.
  apply (solution_sub _ _ (liqDomain NR)); [rewrite Nlc; apply C90_liquid|intros m [A _]; exact A|]. intros m k. apply (iron_open tab iF2 iF3). exact liq_open.
Qed.
Theorem C166_melts :
  (forall r v, nth_error vs r = Some v -> is_derive (fun y => U t p (setVar v y s)) (valVar s v) (- mB MO r)) /\
  (forall r c v w, nth_error vs r = Some v -> nth_error vs c = Some w ->
     is_derive (fun x => Derive (fun y => U t p (setVar v y (setVar w x s))) (valVar (setVar w x s) v)) (valVar s w) (mE MO r c)) /\
  (md = Isochoric -> is_derive (fun x => U t x s) p (- mB MO (length vs)) /\ is_derive (fun x => Derive (fun x => U t x s) x) p (mE MO (length vs) (length vs)) /\
     forall r v, nth_error vs r = Some v ->
       is_derive (fun y => Derive (fun x => U t x (setVar v y s)) p) (valVar s v) (mE MO r (length vs)) /\ mE MO (length vs) r = mE MO r (length vs)).
Proof.
  assert (In0 : DL (liqC s O)) by (split; [split; [exact Pos|exact Silica]|exact Iron]).
  pose proof (kress_ok tab coeff iF2 iF3 Dif L2 L3 g (liqDomain NR) liq_open) as OKO. pose proof liq_ok as OKL.
  split; [|split; [|intros Iso; split; [|split]]].
  - intros r v E. exact (C166_gradient tab md t p liqX liqStd solX solStd conCols nuL nuS ol oe os DL DS Md Lay Ht OKL OKS StdL StdS OKO s Cnt HasL One In0 InS Cols r v E).
  - intros r c v w E E'. exact (C166_hessian tab md t p liqX liqStd solX solStd conCols nuL nuS ol oe os DL DS Lay Ht OKL OKS StdL StdS OKO s Cnt HasL One In0 InS Cols r c v w E E').
  - exact (C166_pressure_gradient tab md t p liqX liqStd solX solStd conCols nuL nuS ol oe os DL DS Lay Ht OKL OKS StdL StdS OKO s Cnt HasL One In0 InS Cols Iso).
  - exact (C166_pressure_hessian tab md t p liqX liqStd solX solStd conCols nuL nuS ol oe os DL DS Lay Ht OKL OKS StdL StdS OKO s Cnt HasL One In0 InS Cols Iso).
  - intros r v E. exact (C166_pressure_mixed tab md t p liqX liqStd solX solStd conCols nuL nuS ol oe os DL DS Lay Ht OKL OKS StdL StdS OKO s Cnt HasL One In0 InS Cols Iso r v E).
Qed.
End Melts.
(** one mole of each oxide, held at constant volume *)
Definition kSt : St := mkSt true 1 (fun _ _ => 1) (fun _ => O) (fun _ _ => 0) (fun _ => 1) (fun _ _ => 0) (fun _ => 0) 0 0 false.
Theorem C166_melts_witness parH parS parV nu oe os : layout oxideTab /\ counts oxideTab kSt /\
  let U := openPotential oxideTab nu nu (liqMixing NR (byPair parH) (byPair parS) (byPair parV)) (fun _ => simple 1 2 3) (fun _ => hX 1) hStd Isochoric (oMu (kressO oxideTab coeffs 5 3 (fun t => t))) in
  let M := gradHessO oxideTab Isochoric 1500 1000 (length (conVars oxideTab true kSt) + 1) nu nu (kressO oxideTab coeffs 5 3 (fun t => t)) oe os
             (liqMixing NR (byPair parH) (byPair parS) (byPair parV)) (fun _ => simple 1 2 3) (fun _ => hX 1) hStd true kSt in
  is_derive (fun y => U 1500 1000 (setVar (VLiq 0 0) y kSt)) 1 (- mB M 0) /\
  is_derive (fun x => Derive (fun x => U 1500 x kSt) x) 1000 (mE M (length (conVars oxideTab true kSt)) (length (conVars oxideTab true kSt))).
Proof.
  assert (La : layout oxideTab) by (intros i Hi; cbn in Hi; lia).
  assert (Cn : counts oxideTab kSt) by (split; [|split]; intros i; cbn; auto; try discriminate; lia).
  split; [exact La|split; [exact Cn|]]. cbv zeta.
  pose proof (C166_melts oxideTab eq_refl coeffs 5 3 ltac:(lia) ltac:(cbn; lia) ltac:(cbn; lia) (fun t => t) parH parS parV Isochoric 1500 1000 (fun _ => simple 1 2 3) (fun _ => hX 1) hStd _ nu nu oe os
    (fun _ _ => True) (or_intror eq_refl) La ltac:(lra) ltac:(intros i Hi; cbn in Hi; lia) (fun j _ => simple_ok 1 2 3) (fun i _ => simple_ok _ _ _) kSt Cn eq_refl eq_refl
    ltac:(intros; cbn; lra) ltac:(cbn; lra) (proj1 C77_witness) ltac:(intros i n H; cbn in H; lia) eq_refl) as (A & _ & B).
  specialize (B eq_refl). destruct B as (_ & B & _). split; [|exact B]. refine (A 0%nat (VLiq 0 0) _).
  unfold conVars, conLiquids. cbn [oxideTab nlc npc kSt nLiq seq flat_map conSolids app]. unfold onlyPresent, present. cbn [kSt liqC]. destruct (Req_EM_T 1 0); [exfalso; lra|]. reflexivity.
Qed.
