(** C177-C179 for the liquid and the solutions of the table. *)
From Coq Require Import Reals QArith Qreals String Bool Arith ZArith NArith Lia Lra FunctionalExtensionality.
From Coquelicot Require Import Coquelicot.
From Verif Require Import RealTac Sym MassModel MassSpec MassProofs ReportModel QryModel QrySpec QryProps.
From Verif Require SolnModel SolnSpec SolnData SolnProofs SolnProps ConData ConProofs LiqModel LiqProofs LiqProps.
From Verif Require Import ElmModel.
From Coq Require Import List. Import ListNotations.
Local Open Scope R_scope.

(** The solution phases of C14 as the queries call them; f: convert from elements, cur: the end members at T and P *)
Definition solution (ph : SolnModel.phase) (f : (nat -> R) -> nat -> R) (cur : nat -> nat -> R -> R -> R) : Soln :=
  {| sNa := SolnModel.ph_na ph; sElem := f; sR := fun m j => SolnModel.con_r (SolnModel.ph_con ph) j m;
     sMix := fun q t p r =>
       match q with
       | 0%nat => SolnModel.gmix ph t p r | 1%nat => SolnModel.hmix ph t p r | 2%nat => SolnModel.smix ph t p r | 3%nat => SolnModel.vmix ph t p r
       | 4%nat => SolnModel.cpmix ph t p r | 5%nat => SolnModel.cpmix_dt ph t p r | 6%nat => SolnModel.vmix_dt ph t p r | 7%nat => SolnModel.vmix_dp ph t p r
       | 8%nat => SolnModel.vmix_dt2 ph t p r | 9%nat => SolnModel.vmix_dtdp ph t p r | _ => SolnModel.vmix_dp2 ph t p r end;
     sMu := fun t p r i => SolnModel.act_mu ph i t p r; sAct := fun t p r i => SolnModel.act_a ph i t p r; sCur := cur |}.
(** The liquid of liquid_v34.c: nlc = n + 1 components, W = WH - T WS + (P - 1) WV; the volume of mixing has no T and P derivatives *)
Definition liquid (n : nat) (WH WS WV : nat -> nat -> R) (cur : nat -> nat -> R -> R -> R) : Soln :=
  {| sNa := S n; sElem := fun _ _ => 0; sR := LiqModel.rOf n;
     sMix := fun q t p r =>
       match q with
       | 0%nat => LiqModel.gmix n WH WS WV t p r | 1%nat => LiqModel.hmix n WH WV p r | 2%nat => LiqModel.smix n WS r | 3%nat => LiqModel.vmix n WV r
       | 4%nat => LiqModel.cpmix | 5%nat => LiqModel.dcpmixdt | 6%nat => LiqModel.dvmixdt | 7%nat => LiqModel.dvmixdp | _ => 0 end;
     sMu := fun t p r i => LiqModel.mu n WH WS WV t p r i; sAct := fun t p r i => LiqModel.act n WH WS WV t p r i; sCur := cur |}.

Lemma sumTo_sum n f : SolnSpec.sumTo n f = sum n f.
Proof. induction n; cbn; [reflexivity|]. now rewrite IHn. Qed.
Lemma con_scale c : ConProofs.conCheck c = true -> forall k m m', 0 < k -> 0 < sum (SolnModel.cv_na c) m -> (forall i, m' i = k * m i) ->
  forall j, SolnModel.con_r c j m' = SolnModel.con_r c j m.
Proof.
  intros I k m m' K P E j. assert (E' : m' = fun i => k * m i) by (now apply functional_extensionality). subst m'.
  assert (T : SolnModel.total (SolnModel.cv_na c) (fun i => k * m i) = k * sum (SolnModel.cv_na c) m) by (exact (sum_scal (SolnModel.cv_na c) k m)).
  assert (T' : SolnModel.total (SolnModel.cv_na c) m = sum (SolnModel.cv_na c) m) by reflexivity.
  destruct (le_lt_dec (SolnModel.cv_nr c) j) as [L|L].
  - rewrite !(ConProofs.con_r_out c I) by assumption. reflexivity.
  - rewrite !(ConProofs.con_r_lin c I) by (try assumption; rewrite ?T, ?T'; try apply Rmult_lt_0_compat; assumption).
    rewrite T, T', !sumTo_sum. rewrite (sum_ext _ (fun i => _ * (k * m i)) (fun i => k * (Q2R (ConProofs.coef c j i) * m i))) by (intros; ring).
    rewrite sum_scal. change SolnSpec.sumTo with sum. field. split; lra.
Qed.
Lemma solution_scaleFree ph f cur : In ph SolnData.phases -> scaleFree (solution ph f cur).
Proof.
  intros I k m m' K P E. cbn [sNa sR sMix sMu solution] in *.
  destruct (SolnProofs.wf ph (SolnProps.wck ph I)) as (Ena & _ & _ & Cc & _).
  assert (Q : (fun j => SolnModel.con_r (SolnModel.ph_con ph) j m') = (fun j => SolnModel.con_r (SolnModel.ph_con ph) j m)).
  { apply functional_extensionality. intros j. apply (con_scale _ Cc k); auto. now rewrite Ena. }
  rewrite Q. split; reflexivity.
Qed.
Lemma liquid_scaleFree n WH WS WV cur : scaleFree (liquid n WH WS WV cur).
Proof.
  intros k m m' K P E. cbn [sNa sR sMix sMu liquid] in *.
  assert (Q : LiqModel.rOf n m' = LiqModel.rOf n m).
  { assert (E' : m' = fun i => k * m i) by (now apply functional_extensionality). subst m'. apply functional_extensionality. intros j.
    assert (T : LiqModel.total n (fun i => k * m i) = k * LiqModel.total n m) by (exact (sum_scal (S n) k m)).
    assert (T' : 0 < LiqModel.total n m) by exact P.
    assert (0 < k * LiqModel.total n m) by (now apply Rmult_lt_0_compat).
    unfold LiqModel.rOf, LiqModel.isZ. rewrite T. destruct (Req_EM_T _ _); [lra|]. destruct (Req_EM_T _ _); [lra|]. field. split; lra. }
  rewrite Q. split; reflexivity.
Qed.

(** ** Conversions from elements keep proportions *)
Lemma Rlt_dec_times k x y : 0 < k -> forall A (u v : A), (if Rlt_dec (k * x) (k * y) then u else v) = (if Rlt_dec x y then u else v).
Proof.
  intros K A u v. destruct (Rlt_dec (k * x) (k * y)) as [L|L], (Rlt_dec x y) as [M|M]; try reflexivity; exfalso.
  - apply M. now apply Rmult_lt_reg_l with k.
  - apply L. now apply Rmult_lt_compat_l.
Qed.
Lemma D0 k x : 0 < k -> forall A (u v : A), (if Rlt_dec (k * x) 0 then u else v) = (if Rlt_dec x 0 then u else v).
Proof. intros K A u v. rewrite <- (Rlt_dec_times k x 0 K). now rewrite Rmult_0_r. Qed.
Ltac lin E := unfold proportional; intros k e e' i K E; try unfold ElmModel.listed;
  do 8 (destruct i as [|i]; [cbn [nth]; rewrite ?E; try field|]); cbn [nth]; ring.
Lemma p_olv : proportional olv. Proof. unfold olv. lin E. Qed.
Lemma p_grn : proportional grn. Proof. unfold grn. lin E. Qed.
Lemma p_mel : proportional mel. Proof. unfold mel. lin E. Qed.
Lemma p_cum : proportional cum. Proof. unfold cum. lin E. Qed.
Lemma p_bio : proportional bio. Proof. unfold bio. lin E. Qed.
Lemma p_fld : proportional fld. Proof. unfold fld. lin E. Qed.
Lemma p_nph : proportional nph. Proof. unfold nph. lin E. Qed.
Lemma p_kal : proportional kal. Proof. unfold kal. lin E. Qed.
Lemma p_leu : proportional leu. Proof. unfold leu. lin E. Qed.
Lemma p_flu : proportional flu. Proof. unfold flu. lin E. Qed.
Lemma p_alloy : proportional alloy. Proof. unfold alloy. lin E. Qed.
Lemma pos_times k x : 0 < k -> pos (k * x) = k * pos x.
Proof. intros K. unfold pos. rewrite D0 by assumption. destruct (Rlt_dec x 0); ring. Qed.
Lemma p_msg : proportional msg.
Proof.
  intros k e e' i K E. unfold msg, oxideCat, oxideChg, ElmModel.listed. rewrite !E.
  set (f3 := 6 * (e 12%nat + e 13%nat + e 22%nat + e 24%nat + e 25%nat + e 26%nat + e 27%nat + e 28%nat) / 2 - (2 * e 12%nat + 3 * e 13%nat + 4 * e 22%nat + 3 * e 24%nat + 2 * e 25%nat + 2 * e 27%nat + 2 * e 28%nat) - 2 * e 26%nat).
  match goal with |- context [pos (?x / 2)] => match x with context [k] => replace x with (k * f3) by (unfold f3; field) end end.
  replace (k * f3 / 2) with (k * (f3 / 2)) by field. replace (k * e 26%nat - k * f3) with (k * (e 26%nat - f3)) by ring. rewrite !pos_times by assumption.
  do 5 (destruct i as [|i]; [cbn [nth]; field|]). destruct i; cbn [nth]; ring.
Qed.
Lemma p_rhm : proportional rhm.
Proof.
  intros k e e' i K E. unfold rhm, oxideCat, oxideChg, ElmModel.listed. rewrite !E.
  set (f3 := 6 * (e 12%nat + e 13%nat + e 22%nat + e 24%nat + e 25%nat + e 26%nat + e 27%nat + e 28%nat) / 2 - (2 * e 12%nat + 3 * e 13%nat + 4 * e 22%nat + 3 * e 24%nat + 2 * e 25%nat + 2 * e 27%nat + 2 * e 28%nat) - 2 * e 26%nat).
  match goal with |- context [pos ((?x + _ + _) / 2)] => match x with context [k] => replace x with (k * f3) by (unfold f3; field) end end.
  replace ((k * f3 + k * e 13%nat + k * e 24%nat) / 2) with (k * ((f3 + e 13%nat + e 24%nat) / 2)) by field. rewrite !pos_times by assumption.
  do 4 (destruct i as [|i]; [cbn [nth]; field|]). destruct i; cbn [nth]; ring.
Qed.
Lemma p_oox : proportional oox.
Proof.
  intros k e e' i K E. unfold oox, oxideCat, oxideChg, ElmModel.listed. rewrite !E.
  set (f3 := 10 * (e 12%nat + e 13%nat + e 22%nat + e 24%nat + e 25%nat + e 26%nat + e 27%nat + e 28%nat) / 3 - (2 * e 12%nat + 3 * e 13%nat + 4 * e 22%nat + 3 * e 24%nat + 2 * e 25%nat + 2 * e 27%nat + 2 * e 28%nat) - 2 * e 26%nat).
  match goal with |- context [pos ?x] => match x with context [k] => replace x with (k * f3) by (unfold f3; field) end end.
  rewrite !pos_times by assumption.
  do 3 (destruct i as [|i]; [cbn [nth]; field|]). destruct i; cbn [nth]; ring.
Qed.
Lemma p_pyr : proportional pyrElem.
Proof.
  intros k e e' i K E.
  assert (S : pyrSplit e' = (k * fst (pyrSplit e), k * snd (pyrSplit e))).
  { unfold pyrSplit. assert (F : pyrFe3 e' = k * pyrFe3 e) by (unfold pyrFe3; rewrite !E; ring). rewrite F, E.
    replace (k * e 26%nat - k * pyrFe3 e) with (k * (e 26%nat - pyrFe3 e)) by ring.
    rewrite D0 by assumption. destruct (Rlt_dec (pyrFe3 e) 0); rewrite D0 by assumption; destruct (Rlt_dec _ 0); cbn; f_equal; ring. }
  unfold pyrElem. rewrite S. destruct (pyrSplit e) as [u v]. cbn [fst snd]. rewrite !E.
  do 7 (destruct i as [|i]; [field|]). ring.
Qed.
Lemma p_aph : proportional aph.
Proof.
  intros k e e' i K E. unfold aph, ElmModel.listed. rewrite !E.
  set (f3 := 2 * (e 8%nat - e 1%nat) + e 1%nat + e 9%nat + e 17%nat - (e 11%nat + 2 * e 12%nat + 3 * e 13%nat + 4 * e 14%nat + 2 * e 20%nat + 4 * e 22%nat + 2 * e 25%nat) - 2 * e 26%nat).
  cbv zeta. match goal with |- context [Rlt_dec ?x 0] => match x with context [k] => replace x with (k * f3) by (unfold f3; ring) end end.
  replace (k * e 26%nat - k * f3) with (k * (e 26%nat - f3)) by ring.
  rewrite D0 by assumption. destruct (Rlt_dec f3 0); [replace (0.99 * (k * e 26%nat)) with (k * (0.99 * e 26%nat)) by ring|]; rewrite D0 by assumption; destruct (Rlt_dec _ 0);
    (do 3 (destruct i as [|i]; [cbn [nth]; field|]); destruct i; cbn [nth]; ring).
Qed.
Lemma p_hrn : proportional hrn.
Proof.
  intros k e e' i K E. unfold hrn, ElmModel.listed. rewrite !E.
  set (f3 := 23 * (e 11%nat + e 12%nat + e 13%nat + e 14%nat + e 19%nat + e 20%nat + e 22%nat + e 24%nat + e 25%nat + e 26%nat) / 8 -
     (e 11%nat + 2 * e 12%nat + 3 * e 13%nat + 4 * e 14%nat + e 19%nat + 2 * e 20%nat + 4 * e 22%nat + 3 * e 24%nat + 2 * e 25%nat) - 2 * e 26%nat).
  cbv zeta. match goal with |- context [Rlt_dec ?x _] => match x with context [k] => replace x with (k * f3) by (unfold f3; field) end end.
  replace (k * e 26%nat - k * f3) with (k * (e 26%nat - f3)) by ring.
  replace (0.01 * (k * e 26%nat)) with (k * (0.01 * e 26%nat)) by ring. replace (0.99 * (k * e 26%nat)) with (k * (0.99 * e 26%nat)) by ring.
  rewrite Rlt_dec_times by assumption. destruct (Rlt_dec f3 _); rewrite Rlt_dec_times by assumption; destruct (Rlt_dec _ _);
    (do 3 (destruct i as [|i]; [cbn [nth]; field|]); destruct i; cbn [nth]; ring).
Qed.
Theorem C177_conversions label n f : fromElements label n = Some f -> label <> "spinel"%string -> proportional f.
Proof.
  unfold fromElements. intros H N.
  repeat match type of H with
  | (if String.eqb label ?x then _ else _) = _ => destruct (String.eqb_spec label x)
  | (if String.eqb label ?x || String.eqb label ?y then _ else _) = _ => destruct (String.eqb label x || String.eqb label y)
  end; try (injection H as <-); try discriminate.
  - exact p_pyr. - exact p_olv. - exact p_grn. - exact p_mel. - exact p_cum. - exact p_aph. - exact p_hrn. - exact p_bio. - exact p_fld.
  - exact p_nph. - exact p_kal. - exact p_leu. - congruence. - destruct (Nat.eqb n 5); [exact p_msg|exact p_rhm]. - exact p_oox. - exact p_flu. - exact p_alloy.
Qed.
(** the spinel conversion is not in proportion: a charge excess sets the ferric iron to DBL_EPSILON moles whatever the amount *)
Theorem C177_spinel_refuted : fromElements "spinel" 5 = Some spn /\ ~ proportional spn.
Proof.
  split; [reflexivity|]. intros P. set (e := fun z => if Nat.eqb z 22 then 1 else 0).
  assert (V : forall e, (forall z, z <> 22%nat -> e z = 0) -> 0 < e 22%nat -> spn e 2 = DBL_EPSILON / 2).
  { intros x Z L. unfold spn, oxideCat, oxideChg, ElmModel.listed. cbv zeta.
    assert (Z1 : x 12%nat = 0 /\ x 13%nat = 0 /\ x 24%nat = 0 /\ x 25%nat = 0 /\ x 26%nat = 0 /\ x 27%nat = 0 /\ x 28%nat = 0) by (repeat split; apply Z; discriminate).
    match goal with |- context [if Rlt_dec ?u 0 then (DBL_EPSILON, _, _, _) else _] => destruct (Rlt_dec u 0) as [D|D] end; [reflexivity|exfalso; apply D; lra]. }
  pose proof (P 2 e (fun z => 2 * e z) 2%nat ltac:(lra) (fun z => eq_refl)) as H.
  rewrite !V in H; [unfold DBL_EPSILON in H; lra|..]; unfold e; cbn; try lra; intros z N; apply Nat.eqb_neq in N; rewrite N; lra.
Qed.

Section Instances.
Variables (tab : Tab) (oxToElm : nat -> nat -> R).
Notation phaseQuery liq := (getPhaseProperties tab oxToElm liq None).
(** C177 for the phases of the table *)
Theorem C177_solution ph label n f cur liq failure failure' t p grams k a mem mem' : In ph SolnData.phases ->
  fromElements label n = Some f -> label <> "spinel"%string -> 0 < k -> 0 < sum (SolnModel.ph_na ph) (f (elements tab oxToElm grams)) ->
  let e := Some (Solution (solution ph f cur)) in
  (forall q, (q < 11)%nat -> cell (snd (phaseQuery liq failure e t p (times k grams) (Some a) mem)) a q = k * cell (snd (phaseQuery liq failure' e t p grams (Some a) mem')) a q)
  /\ (forall i, (i < SolnModel.ph_na ph)%nat ->
       cell (snd (phaseQuery liq failure e t p (times k grams) (Some a) mem)) a (11 + i)%nat = cell (snd (phaseQuery liq failure' e t p grams (Some a) mem')) a (11 + i)%nat).
Proof.
  intros I F N K P e. apply (C177_extensive tab oxToElm liq (Solution (solution ph f cur)) failure failure' t p grams k a mem mem' K).
  - split; [now apply solution_scaleFree|]. exact (C177_conversions label n f F N).
  - intros _. exact P.
Qed.
Theorem C177_liquid n WH WS WV cur failure failure' t p grams k a mem mem' : 0 < k -> 0 < sum (S n) (liqMoles tab grams) ->
  let liq := liquid n WH WS WV cur in let e := Some Liquid in
  (forall q, (q < 11)%nat -> cell (snd (phaseQuery liq failure e t p (times k grams) (Some a) mem)) a q = k * cell (snd (phaseQuery liq failure' e t p grams (Some a) mem')) a q)
  /\ (forall i, (i < S n)%nat ->
       cell (snd (phaseQuery liq failure e t p (times k grams) (Some a) mem)) a (11 + i)%nat = cell (snd (phaseQuery liq failure' e t p grams (Some a) mem')) a (11 + i)%nat).
Proof.
  intros K P liq e. apply (C177_extensive tab oxToElm liq Liquid failure failure' t p grams k a mem mem' K).
  - apply liquid_scaleFree.
  - intros _. exact P.
Qed.
(** C178 *)
Theorem C178_solution ph f cur liq failure t p grams a mem : In ph SolnData.phases ->
  let m := f (elements tab oxToElm grams) in
  SolnProofs.feasible ph t p (fun j => SolnModel.con_r (SolnModel.ph_con ph) j m) ->
  (forall i, (i < SolnModel.ph_na ph)%nat -> consistent (cur i) t p) ->
  consistent (inJoules (reported tab oxToElm liq (Solution (solution ph f cur)) failure grams a mem)) t p.
Proof.
  intros I m F C. apply (C178_general tab oxToElm liq (Solution (solution ph f cur)) (solution ph f cur)); [reflexivity| |exact C].
  cbn [amountsOf sElem solution sMix sR]. fold m. set (r := fun j => SolnModel.con_r (SolnModel.ph_con ph) j m) in *.
  destruct (SolnProps.C14_smix_hmix_cpmix ph I t p r F) as (S1 & S2 & S3 & S4 & _).
  destruct (SolnProps.C14_vmix ph I t p r F) as (V1 & V2 & V3 & V4 & V5 & V6 & _).
  constructor; cbv beta iota; try assumption. rewrite S2. ring.
Qed.
Theorem C178_liquid n WH WS WV cur failure t p grams a mem :
  (forall i, (i < S n)%nat -> consistent (cur i) t p) ->
  consistent (inJoules (reported tab oxToElm (liquid n WH WS WV cur) Liquid failure grams a mem)) t p.
Proof.
  intros C. apply (C178_general tab oxToElm (liquid n WH WS WV cur) Liquid (liquid n WH WS WV cur)); [reflexivity| |exact C].
  cbn [amountsOf liquid sMix sR]. set (r := LiqModel.rOf n (liqMoles tab grams)).
  assert (D : forall c x d : R, d = 0 -> is_derive (fun _ : R => c) x d) by (intros c x d ->; exact (is_derive_const (K := R_AbsRing) (V := R_NormedModule) c x)).
  constructor; cbv beta iota.
  - apply LiqProps.C83_gibbs.
  - apply LiqProps.C83_entropy.
  - apply LiqProps.C83_volume.
  - apply D. unfold LiqModel.cpmix, Rdiv. ring.
  - apply D. reflexivity.
  - apply D. reflexivity.
  - apply D. reflexivity.
  - apply D. reflexivity.
  - apply D. reflexivity.
  - apply D. reflexivity.
Qed.
(** C179 *)
Theorem C179_solution ph f cur liq failure t p grams a mem : In ph SolnData.phases ->
  let m := f (elements tab oxToElm grams) in
  0 < sum (SolnModel.ph_na ph) m -> SolnProofs.feasible ph t p (fun j => SolnModel.con_r (SolnModel.ph_con ph) j m) ->
  let after := snd (phaseQuery liq failure (Some (Solution (solution ph f cur))) t p grams (Some a) mem) in
  cell after a 0 = sum (SolnModel.ph_na ph) (fun i => m i * cell after a (11 + i)%nat).
Proof.
  intros I m P F. apply (C179_general tab oxToElm liq (Solution (solution ph f cur)) (solution ph f cur)); [reflexivity|].
  unfold eulerAt. cbn [amountsOf sElem solution sMix sR sNa sMu]. fold m. set (r := fun j => SolnModel.con_r (SolnModel.ph_con ph) j m) in *.
  pose proof (SolnProps.C15_euler ph I t p m P F) as E. cbv zeta in E. fold r in E. rewrite <- E. change SolnSpec.sumTo with sum. rewrite <- sum_scal_r. apply sum_ext. intros i L.
  destruct (SolnProofs.wf ph (SolnProps.wck ph I)) as (Ena & _ & _ & Cc & _).
  rewrite (ConProofs.con_x_frac (SolnModel.ph_con ph) Cc); [|rewrite Ena; exact P|rewrite Ena; exact L].
  change (SolnModel.total (SolnModel.cv_na (SolnModel.ph_con ph)) m) with (sum (SolnModel.cv_na (SolnModel.ph_con ph)) m). rewrite Ena. field. lra.
Qed.
Theorem C179_liquid n WH WS WV cur failure t p grams a mem : (1 <= n)%nat ->
  LiqProofs.symmetric n WH -> LiqProofs.symmetric n WS -> LiqProofs.symmetric n WV ->
  let m := liqMoles tab grams in (forall i, (i < S n)%nat -> 0 <= m i) -> 0 < sum (S n) m ->
  let after := snd (phaseQuery (liquid n WH WS WV cur) failure (Some Liquid) t p grams (Some a) mem) in
  cell after a 0 = sum (S n) (fun i => m i * cell after a (11 + i)%nat).
Proof.
  intros N1 SH SS SV m Z P. apply (C179_general tab oxToElm (liquid n WH WS WV cur) Liquid (liquid n WH WS WV cur)); [reflexivity|].
  unfold eulerAt. cbn [amountsOf liquid sMix sR sNa sMu]. fold m.
  assert (X : forall i, (i < S n)%nat -> LiqModel.xr n (LiqModel.rOf n m) i = m i / sum (S n) m).
  { intros i L. destruct (LiqProps.C85_fractions n m i) as [E1 E2]; [change (LiqModel.total n m) with (sum (S n) m); lra|exact L|]. rewrite E1. exact E2. }
  rewrite (LiqProps.C84_euler n WH WS WV SH SS SV N1 t p).
  - rewrite <- sum_scal_r. apply sum_ext. intros i L. rewrite X by exact L. field. lra.
  - intros i L. rewrite X by exact L. apply Rmult_le_pos; [auto|]. left. now apply Rinv_0_lt_compat.
Qed.
End Instances.
