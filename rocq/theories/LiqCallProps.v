(** C232, C233: the liquidus calls of the object. *)
From Coq Require Import Reals Arith Lia Lra Bool ZArith List.
From Verif Require Import MassModel MassSpec MassProofs RedoxModel RedoxProps SupplyModel SupplyProps IfaceModel IfaceProps LiqCallModel.
Import ListNotations.
Open Scope R_scope.

Section P.
Variable tab : Tab.
Variable search : Obj -> option Found.
Variable coeff : nat -> R.
Variables iF2 iF3 : nat.
Variable capped : bool.
Notation call := (call tab search coeff iF2 iF3 capped).
Notation calls := (calls tab search coeff iF2 iF3 capped).
Notation callLiquidus := (callLiquidus tab search).

(** what C134-C136 prove of the search: it makes neither solids nor liquids *)
Definition keepsPhases : Prop := forall ob f, search ob = Some f ->
  nLiq (matter (foundNode f)) = nLiq (matter (node ob)) /\ (forall i, nSol (matter (foundNode f)) i = nSol (matter (node ob)) i).

(** ** C232: after the call the object shows the system the search left, at its temperature *)
Theorem C232_partial : keepsPhases -> invertible tab -> (forall o, (o < nc tab)%nat -> omw tab o <> 0) ->
  forall l b l', unrun (obj l) -> callLiquidus l = Some (b, l') ->
  exists f, search (withEngine true (obj l)) = Some f /\
    shows tab (obj l') /\ compSet (obj l') = true /\ unrun (obj l') /\
    (forall o, (o < nc tab)%nat -> entered (obj l') o = bulk (matter (foundNode f)) o * omw tab o) /\
    temp (obj l') = foundT f /\ press (obj l') = press (obj l) /\
    total (obj l') = sum 20 (entered (obj l')).
Proof.
  intros Kp Inv Mw l b l' (A & B & _) C. unfold LiqCallModel.callLiquidus in C. destruct (search (withEngine true (obj l))) as [f|] eqn:S; [|discriminate].
  injection C as <- <-. destruct (Kp _ f S) as [K1 K2]. exists f. split; [reflexivity|].
  match goal with |- context[IfaceModel.setComposition tab ?c ?o] => assert (U : unrun o) end.
  { unfold unrun. cbn [node withEngine withFound engineOn matter] in *. split; [now rewrite K1|]. split; [|reflexivity]. intros i. rewrite K2. apply B. }
  cbn [obj]. split; [now apply shows_setComposition|]. split; [reflexivity|]. split; [now apply unrun_setComposition|].
  split; [|split; [reflexivity|split; [reflexivity|]]].
  - intros o Ho. unfold IfaceModel.setComposition. cbn [entered withEngine withFound node]. apply Nat.ltb_lt in Ho. rewrite Ho. ring.
  - unfold IfaceModel.setComposition. cbn [entered total]. rewrite loop_addR. ring.
Qed.

(** ** C233: where the liquidus temperature shown comes from *)
Lemma calls_app a : forall b l, calls (a ++ b) l = match calls a l with Some m => calls b m | None => None end.
Proof. induction a as [|k a IH]; intros b l; [reflexivity|]. cbn [app LiqCallModel.calls]. destruct (call k l); [apply IH|reflexivity]. Qed.
(** a call that sets or forgets the temperature: InitializeMelts, or a search that succeeds *)
Definition touches (k : Call) (l : LObj) : Prop :=
  match k with
  | Plain (CInit _) => True
  | Plain _ => False
  | LiquidusCall => exists f, search (withEngine true (obj l)) = Some f /\ success f = true
  end.
(** After any calls on an object that shows no liquidus temperature, one that is shown was found by a search that succeeded,
    on the object as it was at that moment; no search has succeeded and nothing was initialised since. *)
Theorem C233_origin_partial : forall ks l l' T, liqT l = None -> calls ks l = Some l' -> liqT l' = Some T ->
  exists before after m f, ks = before ++ LiquidusCall :: after /\ calls before l = Some m /\
    search (withEngine true (obj m)) = Some f /\ success f = true /\ T = foundT f - 273.15 /\
    (forall a k b n, after = a ++ k :: b -> calls (before ++ LiquidusCall :: a) l = Some n -> ~ touches k n).
Proof.
  intros ks. induction ks as [|k ks IH] using rev_ind; intros l l' T N C E.
  - cbn in C. injection C as <-. congruence.
  - rewrite calls_app in C. destruct (calls ks l) as [m|] eqn:Cm; [|discriminate]. cbn [LiqCallModel.calls] in C.
    destruct (call k m) as [l2|] eqn:K; [|discriminate]. injection C as ->.
    assert (Old : ~ touches k m -> liqT l' = liqT m).
    { destruct k as [c|]; cbn [LiqCallModel.call] in K; intros NT.
      - destruct c; cbn [touches] in NT; [exfalso; now apply NT|..]; destruct (issue _ _ _ _ _ _ _); try discriminate; injection K as <-; reflexivity.
      - unfold LiqCallModel.callLiquidus in K. cbn [touches] in NT. destruct (search (withEngine true (obj m))) as [f|] eqn:S; [|discriminate].
        injection K as <-. cbn [liqT]. destruct (success f) eqn:Su; [|reflexivity]. exfalso. apply NT. eauto. }
    assert (D : touches k m \/ ~ touches k m).
    { destruct k as [[]|]; cbn [touches]; auto. destruct (search (withEngine true (obj m))) as [f|]; [destruct (success f) eqn:Su|].
      - left. eauto. - right. intros (f' & F & Su'). injection F as ->. congruence. - right. intros (f' & F & _). discriminate. }
    destruct D as [D|D].
    + destruct k as [c|]; cbn [LiqCallModel.call] in K.
      * destruct c; cbn [touches] in D; try contradiction. cbn [issue] in K. injection K as <-. cbn [liqT] in E. discriminate.
      * destruct D as (f & S & Su). unfold LiqCallModel.callLiquidus in K. rewrite S, Su in K. injection K as <-. cbn [liqT temp withFound] in E. injection E as <-.
        exists ks, [], m, f. split; [reflexivity|]. split; [exact Cm|]. split; [exact S|]. split; [exact Su|]. split; [reflexivity|].
        intros a k b n Q. destruct a; discriminate.
    + rewrite (Old D) in E. destruct (IH l m T N Cm E) as (bf & af & q & f & -> & Cb & S & Su & Te & Af).
      exists bf, (af ++ [k]), q, f. split; [now rewrite <- app_assoc|]. do 4 (split; [assumption|]).
      intros a k' b n Q Cn. destruct b as [|b0 b'] using rev_ind.
      * apply app_inj_tail in Q as [-> ->]. rewrite Cm in Cn. injection Cn as <-. exact D.
      * clear IHb'. replace (a ++ k' :: b' ++ [b0]) with ((a ++ k' :: b') ++ [b0]) in Q by (rewrite <- app_assoc; reflexivity).
        apply app_inj_tail in Q as [Q _]. exact (Af a k' b' n Q Cn).
Qed.

(** ** As stated it is false: another composition, and the temperature stays *)
Theorem C233_refuted_composition : forall l c, exists l', call (Plain (CComp c)) l = Some l' /\ entered (obj l') = c /\ liqT l' = liqT l.
Proof. intros l c. eexists. split; [reflexivity|]. split; reflexivity. Qed.
(** a search that fails says true, leaves the old temperature, and sets the start to the last temperature tried *)
Theorem C233_refuted_failure : forall l f, search (withEngine true (obj l)) = Some f -> success f = false ->
  exists l', callLiquidus l = Some (true, l') /\ liqT l' = liqT l /\ temp (obj l') = foundT f.
Proof. intros l f S F. unfold LiqCallModel.callLiquidus. rewrite S, F. eexists. split; [reflexivity|]. split; reflexivity. Qed.
End P.

(** ** A case: a search that succeeds at 1500 K above 1 bar and fails at 2550 K otherwise; found once, then lost *)
Definition demoSearch (ob : Obj) : option Found :=
  Some (if Rlt_dec 1 (press ob) then mkFound true 1500 (node ob) else mkFound false 2550 (node ob)).
Lemma call_init v l : call oxideTab demoSearch coeffs 5 3 true (Plain (CInit v)) l = Some (mkL (initializeMelts v (obj l)) None).
Proof. reflexivity. Qed.
Lemma call_comp c l : call oxideTab demoSearch coeffs 5 3 true (Plain (CComp c)) l = Some (mkL (setComposition oxideTab c (obj l)) (liqT l)).
Proof. reflexivity. Qed.
Lemma call_tp t p l : exists ob, setInitialTP t p (obj l) = Accepted ob /\ press ob = p /\ node ob = node (obj l) /\ entered ob = entered (obj l) /\
  call oxideTab demoSearch coeffs 5 3 true (Plain (CTP t p)) l = Some (mkL ob (liqT l)).
Proof. eexists. repeat apply conj; reflexivity. Qed.
Lemma call_found l : 1 < press (obj l) -> exists ob, press ob = press (obj l) /\ node ob = node (setComposition oxideTab (entered ob) (obj l)) /\
  call oxideTab demoSearch coeffs 5 3 true LiquidusCall l = Some (mkL ob (Some (1500 - 273.15))).
Proof.
  intros H. unfold call, callLiquidus, demoSearch. cbn [press withEngine]. destruct (Rlt_dec 1 (press (obj l))); [|contradiction].
  eexists. split; [|split; [|reflexivity]]; reflexivity.
Qed.
Lemma call_failed l : ~ 1 < press (obj l) -> exists ob, press ob = press (obj l) /\ temp ob = 2550 /\
  (forall i, (i < 19)%nat -> entered ob i = bulk (matter (node (obj l))) i * omw oxideTab i) /\
  call oxideTab demoSearch coeffs 5 3 true LiquidusCall l = Some (mkL ob (liqT l)).
Proof.
  intros H. unfold call, callLiquidus, demoSearch. cbn [press withEngine]. destruct (Rlt_dec 1 (press (obj l))); [contradiction|].
  eexists. split; [|split; [|split; [|reflexivity]]]; try reflexivity.
  intros i Hi. unfold setComposition. cbn [entered withEngine withFound node foundNode]. change (nc oxideTab) with 19%nat. apply Nat.ltb_lt in Hi. rewrite Hi. ring.
Qed.
Theorem C233_case : exists l', calls oxideTab demoSearch coeffs 5 3 true
    [Plain (CInit 4); Plain (CTP 1200 1000); Plain (CComp oneGram); LiquidusCall; Plain (CTP 1200 1); Plain (CComp (fun _ => 2)); LiquidusCall] (mkL blank None) = Some l' /\
  liqT l' = Some (1500 - 273.15) /\ temp (obj l') = 2550 /\ entered (obj l') 0%nat = 2 /\ press (obj l') = 1.
Proof.
  cbn [calls]. rewrite call_init. cbv beta iota. cbn [obj].
  destruct (call_tp 1200 1000 (mkL (initializeMelts 4 blank) None)) as (o1 & _ & P1 & _ & _ & ->); cbv beta iota. rewrite call_comp. cbv beta iota. cbn [obj liqT].
  destruct (call_found (mkL (setComposition oxideTab oneGram o1) None)) as (o2 & P2 & _ & ->).
  { cbn [obj]. change (press (setComposition oxideTab oneGram o1)) with (press o1). rewrite P1. lra. }
  cbv beta iota.
  destruct (call_tp 1200 1 (mkL o2 (Some (1500 - 273.15)))) as (o3 & _ & P3 & _ & _ & ->); cbv beta iota. rewrite call_comp. cbv beta iota. cbn [obj liqT].
  destruct (call_failed (mkL (setComposition oxideTab (fun _ => 2) o3) (Some (1500 - 273.15)))) as (o4 & P4 & T4 & E4 & ->).
  { cbn [obj]. change (press (setComposition oxideTab (fun _ => 2) o3)) with (press o3). rewrite P3. lra. }
  cbv beta iota.
  eexists. split; [reflexivity|]. cbn [obj liqT]. split; [reflexivity|]. split; [exact T4|]. split.
  - rewrite E4 by lia. cbn [obj]. unfold setComposition. cbn [node]. destruct (supplyFresh_frame oxideTab (fun _ => 2) (node o3)) as (_ & _ & _ & _ & F). rewrite F by (change (nc oxideTab) with 19%nat; lia). change (omw oxideTab 0) with 1. field.
  - rewrite P4. exact P3.
Qed.
(** the hypotheses of C232 on the same search, and after entering one gram of each oxide *)
Lemma oxideTab_invertible : invertible oxideTab.
Proof.
  intros m o Ho. cbn [oxideTab nlc nc oxToLiq liqToOx] in *.
  rewrite (sum_ext 19 _ (fun j => if Nat.eqb j o then m j else 0)).
  - rewrite sum_one_f. apply Nat.ltb_lt in Ho. now rewrite Ho.
  - intros j Hj. rewrite (sum_ext 19 _ (fun o' => if Nat.eqb o' j then m o' else 0)) by (intros o' Ho'; destruct (Nat.eqb o' j); ring).
    rewrite sum_one_f. apply Nat.ltb_lt in Hj. rewrite Hj. destruct (Nat.eqb j o); ring.
Qed.
Lemma demo_keeps : keepsPhases demoSearch.
Proof. intros ob f E. unfold demoSearch in E. injection E as <-. destruct (Rlt_dec 1 (press ob)); split; reflexivity. Qed.
Lemma demo_call ob : unrun ob -> 1 < press ob -> exists l', callLiquidus oxideTab demoSearch (mkL ob None) = Some (true, l') /\
  shows oxideTab (obj l') /\ temp (obj l') = 1500 /\ liqT l' = Some (1500 - 273.15) /\
  (forall o, (o < 19)%nat -> entered (obj l') o = bulk (matter (node ob)) o).
Proof.
  intros U H. assert (S : demoSearch (withEngine true ob) = Some (mkFound true 1500 (node ob))).
  { unfold demoSearch. cbn [withEngine press node]. destruct (Rlt_dec 1 (press ob)); [reflexivity|contradiction]. }
  assert (C : exists l', callLiquidus oxideTab demoSearch (mkL ob None) = Some (true, l') /\ liqT l' = Some (1500 - 273.15)).
  { unfold callLiquidus. cbn [obj]. rewrite S. eexists. split; reflexivity. }
  destruct C as (l' & C & L). exists l'. split; [exact C|].
  destruct (C232_partial oxideTab demoSearch demo_keeps oxideTab_invertible ltac:(intros; cbn; lra) (mkL ob None) true l' U C) as (f & S' & Sh & _ & _ & En & T & _).
  cbn [obj] in S'. rewrite S in S'. injection S' as <-. split; [exact Sh|]. split; [exact T|]. split; [exact L|].
  intros o Ho. rewrite En by exact Ho. cbn [foundNode]. change (omw oxideTab o) with 1. ring.
Qed.
Theorem C232_case : forall c t p, 1 < p -> exists ob, setInitialTP t p (initializeMelts 4 blank) = Accepted ob /\
  exists l', callLiquidus oxideTab demoSearch (mkL (setComposition oxideTab c ob) None) = Some (true, l') /\
  shows oxideTab (obj l') /\ temp (obj l') = 1500 /\ liqT l' = Some (1500 - 273.15) /\ (forall o, (o < 19)%nat -> entered (obj l') o = c o).
Proof.
  intros c t p Hp. eexists. split; [reflexivity|].
  match goal with |- context[setComposition oxideTab c ?o] => set (ob := o) end.
  assert (U : unrun ob) by (split; [reflexivity|split; reflexivity]).
  destruct (demo_call (setComposition oxideTab c ob) (unrun_setComposition oxideTab c ob U)) as (l' & C & Sh & T & L & E).
  { change (press (setComposition oxideTab c ob)) with p. exact Hp. }
  exists l'. split; [exact C|]. split; [exact Sh|]. split; [exact T|]. split; [exact L|].
  intros o Ho. rewrite E by exact Ho. destruct (supplyFresh_frame oxideTab c (node ob)) as (_ & _ & _ & _ & F).
  unfold setComposition. cbn [node]. rewrite F by exact Ho. change (omw oxideTab o) with 1. field.
Qed.

(** ** The wet search leaves the fluid it equilibrated with (liquidus.c 388 sets solidMass to zero, the fluid stays in
    solidComp): C232 is then false. The liquid is given all the grams shown, and the fluid is there as well. *)
Theorem C232_refuted_wet : forall tab search, invertible tab -> (forall o, (o < nc tab)%nat -> omw tab o <> 0) ->
  forall l f, search (withEngine true (obj l)) = Some f -> nLiq (matter (foundNode f)) = 1%nat ->
  exists l', callLiquidus tab search l = Some (true, l') /\
    forall o, (o < nc tab)%nat -> holdsGrams tab (obj l') o = entered (obj l') o + inSolids tab (oxide tab o) (matter (foundNode f)) * omw tab o.
Proof.
  intros tab search Inv Mw l f S L. unfold callLiquidus. rewrite S. eexists. split; [reflexivity|].
  intros o Ho. unfold holdsGrams, setComposition. cbn [obj node entered withEngine withFound].
  match goal with |- context[supplyFresh tab ?c ?n] => set (comp := c); set (nd := n) end.
  destruct (supplyFresh_frame tab comp nd) as (Fs & Fl & _ & Fc & _).
  set (bare := mkNode (mkSt (hasLiquid (matter nd)) (nLiq (matter nd)) (liqC (matter nd)) (fun _ => O) (solC (matter nd)) (bulk (matter nd))
      (fracS (matter nd)) (fracL (matter nd)) (fracMass (matter nd)) (oxy (matter nd)) (fo2On (matter nd))) (liquidMass nd)).
  pose proof (supplyFresh_amount tab Inv comp bare o L (fun _ => eq_refl) Ho) as A.
  assert (B : inSolids tab (oxide tab o) (matter (supplyFresh tab comp bare)) = 0).
  { apply inSolids_none. intros i. destruct (supplyFresh_frame tab comp bare) as (Fs' & _). now rewrite Fs'. }
  assert (C : inLiquids tab (oxide tab o) (matter (supplyFresh tab comp nd)) = inLiquids tab (oxide tab o) (matter (supplyFresh tab comp bare))).
  { unfold inLiquids, inLiquid, supplyFresh. destruct (nlc tab); reflexivity. }
  unfold amount in *. rewrite B, Rplus_0_l in A. rewrite C, A.
  assert (D : inSolids tab (oxide tab o) (matter (supplyFresh tab comp nd)) = inSolids tab (oxide tab o) (matter nd)).
  { unfold inSolids, solidAmount. rewrite Fs, Fc. reflexivity. }
  rewrite D. match goal with |- _ = ?e + _ => change e with (comp o) end. change (matter nd) with (matter (foundNode f)). field. auto.
Qed.
(** a fluid of five moles left by the search *)
Theorem C232_wet_case : forall l, exists l', callLiquidus tiny (fun _ => Some (mkFound true 1400 (node (usedObj 5)))) l = Some (true, l') /\
  holdsGrams tiny (obj l') 0 = entered (obj l') 0%nat + 5.
Proof.
  intros l. assert (Inv : invertible tiny).
  { intros m o Ho. cbn in Ho. assert (o = O) as -> by lia. cbn. ring. }
  destruct (C232_refuted_wet tiny (fun _ => Some (mkFound true 1400 (node (usedObj 5)))) Inv ltac:(intros; cbn; lra) l _ eq_refl eq_refl) as (l' & C & H).
  exists l'. split; [exact C|]. rewrite (H O) by (cbn; lia). f_equal. unfold inSolids, solidAmount, oxide, usedObj, tinyNode. cbn -[Rplus Rmult]. ring.
Qed.
