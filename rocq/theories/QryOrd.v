(** C177-C179 for the solutions with order parameters. *)
From Coq Require Import Reals QArith Qreals String Bool Arith ZArith NArith Lia Lra FunctionalExtensionality.
From Coquelicot Require Import Coquelicot.
From Verif Require Import RealTac Sym MassModel MassProofs ReportModel QryModel QrySpec QryProps QryTable ElmModel.
From Verif Require Import SolnModel SolnSpec OrdModel OrdData OrdSpec OrdProps OrdActModel OrdActData OrdActSpec OrdActProps.
From Verif Require OrdActCase OrdCase ConProofs.
From Coq Require Import List. Import ListNotations.
Local Open Scope R_scope.

(** A phase with order parameters as the queries call it. sv: the order the code settles on at t, p, r; slv: the linear solver
    it uses for derivatives; ends, a0: what pureXxx gives for the end members *)
Definition orderedSolution (A : ordAct) sv slv ends a0 (f : (nat -> R) -> nat -> R) (cur : nat -> nat -> R -> R -> R) : Soln :=
  let ph := oa_ph A in
  {| sNa := o_na ph; sElem := f; sR := fun m j => con_r (oa_con A) j m;
     sMix := fun q t p r =>
       match q with
       | 0%nat => gmixO ph sv ends t p r | 1%nat => hmixO ph sv ends t p r | 2%nat => smixO ph sv ends t p r | 3%nat => vmixO ph sv ends t p r
       | 4%nat => cpmixO ph sv slv ends t p r | 5%nat => cpmixO_dt ph sv slv ends t p r | 6%nat => vmixO_dt ph sv slv ends t p r | 7%nat => vmixO_dp ph sv slv ends t p r
       | 8%nat => vmixO_dt2 ph sv slv ends t p r | 9%nat => vmixO_dtdp ph sv slv ends t p r | _ => vmixO_dp2 ph sv slv ends t p r end;
     sMu := fun t p r i => actO_mu A sv ends i t p r; sAct := fun t p r i => actO_a A sv a0 i t p r; sCur := cur |}.

Lemma ordered_scaleFree A sv slv ends a0 f cur : In A ordActs -> scaleFree (orderedSolution A sv slv ends a0 f cur).
Proof.
  intros I k m m' K P E. cbn [sNa sR sMix sMu orderedSolution] in *.
  assert (Q : (fun j => con_r (oa_con A) j m') = (fun j => con_r (oa_con A) j m)).
  { apply functional_extensionality. intros j. apply (con_scale _ (Cc A I) k); auto. rewrite (Ena A I). exact P. }
  rewrite Q. split; reflexivity.
Qed.
Section Instances.
Variables (tab : Tab) (oxToElm : nat -> nat -> R).
Notation phaseQuery liq := (getPhaseProperties tab oxToElm liq None).
Theorem C177_ordered A sv slv ends a0 label n f cur liq failure failure' t p grams k a mem mem' : In A ordActs ->
  fromElements label n = Some f -> label <> "spinel"%string -> 0 < k -> 0 < sum (o_na (oa_ph A)) (f (elements tab oxToElm grams)) ->
  let e := Some (Solution (orderedSolution A sv slv ends a0 f cur)) in
  (forall q, (q < 11)%nat -> cell (snd (phaseQuery liq failure e t p (times k grams) (Some a) mem)) a q = k * cell (snd (phaseQuery liq failure' e t p grams (Some a) mem')) a q)
  /\ (forall i, (i < o_na (oa_ph A))%nat ->
       cell (snd (phaseQuery liq failure e t p (times k grams) (Some a) mem)) a (11 + i)%nat = cell (snd (phaseQuery liq failure' e t p grams (Some a) mem')) a (11 + i)%nat).
Proof.
  intros I F N K P e. apply (C177_extensive tab oxToElm liq (Solution (orderedSolution A sv slv ends a0 f cur)) failure failure' t p grams k a mem mem' K).
  - split; [now apply ordered_scaleFree|]. exact (C177_conversions label n f F N).
  - intros _. exact P.
Qed.
Theorem C178_ordered A sv slv D ends a0 f cur liq failure t p grams a mem : In A ordActs -> ordered (oa_ph A) sv slv D -> endsOK ends D ->
  D t p (fun j => con_r (oa_con A) j (f (elements tab oxToElm grams))) ->
  (forall i, (i < o_na (oa_ph A))%nat -> QrySpec.consistent (cur i) t p) ->
  QrySpec.consistent (inJoules (reported tab oxToElm liq (Solution (orderedSolution A sv slv ends a0 f cur)) failure grams a mem)) t p.
Proof.
  intros I Or En F C. apply (C178_general tab oxToElm liq (Solution (orderedSolution A sv slv ends a0 f cur)) (orderedSolution A sv slv ends a0 f cur)); [reflexivity| |exact C].
  cbn [amountsOf sElem orderedSolution sMix sR]. set (r := fun j => con_r (oa_con A) j (f (elements tab oxToElm grams))) in *.
  destruct (C94_smix_hmix_cpmix_ordered (oa_ph A) (acts_in A I) sv slv D Or ends En t p r F) as (S1 & S2 & S3 & S4 & _).
  destruct (C95_vmix_ordered (oa_ph A) (acts_in A I) sv slv D Or ends En t p r F) as (V1 & V2 & V3 & V4 & V5 & V6 & _).
  constructor; cbv beta iota; [rewrite S2; ring|exact S1|exact V1|exact S3|exact S4|exact V2|exact V3|exact V4|exact V5|exact V6].
Qed.
Theorem C179_ordered A sv slv D ends a0 f cur liq failure t p grams a mem : In A ordActs -> ordered (oa_ph A) sv slv D ->
  let m := f (elements tab oxToElm grams) in
  0 < sum (o_na (oa_ph A)) m -> D t p (fun j => con_r (oa_con A) j m) ->
  let after := snd (phaseQuery liq failure (Some (Solution (orderedSolution A sv slv ends a0 f cur))) t p grams (Some a) mem) in
  cell after a 0 = sum (o_na (oa_ph A)) (fun i => m i * cell after a (11 + i)%nat).
Proof.
  intros I Or m P F. apply (C179_general tab oxToElm liq (Solution (orderedSolution A sv slv ends a0 f cur)) (orderedSolution A sv slv ends a0 f cur)); [reflexivity|].
  unfold eulerAt. cbn [amountsOf sElem orderedSolution sMix sR sNa sMu]. fold m. set (r := fun j => con_r (oa_con A) j m) in *.
  pose proof (C98_euler A I sv slv D Or ends t p m P F) as E. cbv zeta in E. fold r in E. rewrite <- E. change sumTo with sum. rewrite <- sum_scal_r. apply sum_ext. intros i L.
  rewrite (ConProofs.con_x_frac (oa_con A) (Cc A I)); [|rewrite (Ena A I); exact P|rewrite (Ena A I); exact L].
  change (SolnModel.total (cv_na (oa_con A)) m) with (sum (cv_na (oa_con A)) m). rewrite (Ena A I). field. lra.
Qed.
End Instances.
(** met by melilite (C93_case, C97_case) at the moles of C97_case, entered as elements *)
Theorem C178_ordered_case : exists A sv slv D ends t p e, In A ordActs /\ ordered (oa_ph A) sv slv D /\ endsOK ends D
  /\ fromElements "melilite" 4 = Some mel /\ o_na (oa_ph A) = 4%nat /\ 0 < sum 4 (mel e) /\ D t p (fun j => con_r (oa_con A) j (mel e)).
Proof.
  set (e := fun z : nat => match z with 12%nat => 4/10 | 13%nat => 4/10 | 26%nat => 3/10 | 11%nat => 2/10 | _ => 0 end).
  exists OrdActData.aMel, OrdCase.melState, OrdCase.melSolver, OrdCase.melD, OrdCase.melEnds, 1700, 1, e.
  split; [exact OrdActCase.mel_act|]. split; [exact OrdCase.mel_ordered|]. split; [exact OrdCase.mel_ends|]. split; [reflexivity|]. split; [reflexivity|].
  assert (P : 0 < sum 4 (mel e)) by (unfold mel, ElmModel.listed, e; cbn; lra). split; [exact P|].
  replace (fun j => con_r (oa_con OrdActData.aMel) j (mel e)) with OrdCase.melPoint; [exact OrdCase.mel_point|].
  apply functional_extensionality. intros j. destruct (Nat.lt_ge_cases j 3) as [L|L].
  - rewrite (r_form OrdActData.aMel OrdActCase.mel_act (mel e) P j L). assert (K : j = 0%nat \/ j = 1%nat \/ j = 2%nat) by lia.
    destruct K as [K|[K|K]]; subst j; unfold mel, ElmModel.listed, e; cbn -[Q2R]; rewrite ?OrdCase.q_val; cbn; field.
  - rewrite (ConProofs.con_r_out _ (Cc OrdActData.aMel OrdActCase.mel_act)) by exact L. destruct j as [|[|[|j]]]; try lia. reflexivity.
Qed.
