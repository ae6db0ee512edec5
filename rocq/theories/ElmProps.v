(** From the elements of a mixture of end members back to the mixture. *)
From Coq Require Import Reals String List Bool Arith ZArith QArith Qcanon Qreals Lia Lra.
From Verif Require Import MassModel InitModel InitProps Tables ElmModel ElmData QryModel.
Import List ListNotations.
Local Open Scope R_scope.

(** atoms of element z in m[0] moles of the first formula, m[1] of the second, ... *)
Definition atomsIn (fs : list string) (m : nat -> R) (z : nat) : R := sum (length fs) (fun i => m i * atoms (nth i fs ""%string) z).

Lemma covered : forall s, In s solutions -> forall f, In f (snd s) -> In f (map fst atomTable).
Proof.
  assert (K : forallb (fun s => forallb (fun f => existsb (String.eqb f) (map fst atomTable)) (snd s)) solutions = true) by (vm_compute; reflexivity).
  intros s Hs f Hf. rewrite forallb_forall in K. specialize (K s Hs). rewrite forallb_forall in K. specialize (K f Hf).
  apply existsb_exists in K. destruct K as (g & Hg & E). apply String.eqb_eq in E. now subst g.
Qed.
Lemma sum_same n f g : (forall i, (i < n)%nat -> f i = g i) -> sum n f = sum n g.
Proof. induction n; intros K; [reflexivity|]. cbn [sum]. rewrite IHn, K; auto. Qed.
Lemma atomsIn_val s m z : In s solutions -> (z < 30)%nat ->
  atomsIn (snd s) m z = sum (length (snd s)) (fun i => m i * Q2R (look (atomRow (nth i (snd s) ""%string)) z)).
Proof.
  intros Hs Hz. apply sum_same. intros i Hi. rewrite atoms_table; [reflexivity| |].
  - apply (covered s Hs). now apply nth_In.
  - assert (30 <= NE)%nat by (vm_compute; repeat constructor). lia.
Qed.
Definition needed : list nat := [1; 6; 8; 9; 11; 12; 13; 14; 17; 19; 20; 22; 24; 25; 26; 27; 28]%nat.

Ltac lookup :=
  repeat match goal with |- context [look (atomRow ?f) ?z] => let q := eval vm_compute in (look (atomRow f) z) in change (look (atomRow f) z) with q end.
Lemma in_sol s : existsb (sameSol s) solutions = true -> In s solutions.
Proof. intros K. apply existsb_exists in K. destruct K as (b & Hb & E). apply sameSol_eq in E. now subst b. Qed.
Ltac rows S m e zs IS :=
  match zs with
  | nil => idtac
  | ?z :: ?zs =>
      let K := fresh "E" in
      pose proof (atomsIn_val S m z IS (proj1 (Nat.ltb_lt z 30) eq_refl)) as K;
      change (atomsIn (snd S) m z) with (e z) in K;
      cbn [snd length sum nth] in K;
      repeat match type of K with context [look (atomRow ?f) ?w] => let q := eval vm_compute in (look (atomRow f) w) in change (look (atomRow f) w) with q in K end;
      unfold Q2R in K; cbn [Qnum Qden] in K; rows S m e zs IS
  end.
Ltac pick i Hi := repeat (destruct i as [|i]; [|try (exfalso; cbn in Hi; lia)]); try (exfalso; cbn in Hi; lia).

(** C185: every solution of the tables but one gets back the mixture that the elements were counted from *)
Definition recovers (s : string * list string) : Prop :=
  exists conv, fromElements (fst s) (length (snd s)) = Some conv
    /\ forall m, (forall i, (i < length (snd s))%nat -> 0 <= m i) ->
       forall i, (i < length (snd s))%nat -> conv (atomsIn (snd s) m) i = m i.

Ltac open S :=
  exists (match fromElements (fst S) (length (snd S)) with Some c => c | None => fun _ _ => 0 end);
  split; [reflexivity|];
  let m := fresh "m" in let P := fresh "P" in let i := fresh "i" in let Hi := fresh "Hi" in
  intros m P i Hi;
  let e := fresh "e" in set (e := atomsIn (snd S) m);
  let zs := eval cbv [needed] in needed in let IS := fresh "IS" in pose proof (in_sol S eq_refl) as IS; rows S m e zs IS; clear IS; clearbody e;
  cbn [snd length] in P, Hi;
  cbv [fromElements fst snd String.eqb Ascii.eqb Bool.eqb orb andb length Nat.eqb].
Ltac num :=
  repeat match goal with K : ?f ?z = _ |- context [?f ?z] => rewrite K; clear K end;
  repeat match goal with K : _ _ = _ |- _ => clear K end; lra.
Ltac done i Hi := pick i Hi; cbn [nth]; num.
Ltac less :=
  repeat match goal with K : ?f ?z = _, L : _ < _ |- _ => match type of L with context [f z] => rewrite K in L; clear K end end;
  repeat match goal with K : _ _ = _ |- _ => clear K end; lra.
Lemma rec_olivine : recovers ("olivine"%string, ["Mn2SiO4"%string; "Fe2SiO4"%string; "Co2SiO4"%string; "Ni2SiO4"%string; "CaMgSiO4"%string; "Mg2SiO4"%string]).
Proof.
  match goal with |- recovers ?S => open S end.
  unfold olv, listed. done i Hi.
Qed.
Lemma rec_garnet : recovers ("garnet"%string, ["Fe3Al2Si3O12"%string; "Ca3Al2Si3O12"%string; "Mg3Al2Si3O12"%string]).
Proof.
  match goal with |- recovers ?S => open S end.
  unfold grn, listed. done i Hi.
Qed.
Lemma rec_melilite : recovers ("melilite"%string, ["Ca2MgSi2O7"%string; "Ca2Al2SiO7"%string; "Ca2FeSi2O7"%string; "Na2Si3O7"%string]).
Proof.
  match goal with |- recovers ?S => open S end.
  unfold mel, listed. done i Hi.
Qed.
Lemma rec_orthopyroxene : recovers ("orthopyroxene"%string, ["CaMgSi2O6"%string; "Mg2Si2O6"%string; "CaFeSi2O6"%string; "CaTi0.5Mg0.5AlSiO6"%string; "CaTi0.5Mg0.5FeSiO6"%string; "CaFeAlSiO6"%string; "NaAlSi2O6"%string]).
Proof.
  match goal with |- recovers ?S => open S end.
  pose proof (P 0%nat ltac:(lia)) as P0. pose proof (P 1%nat ltac:(lia)) as P1. pose proof (P 2%nat ltac:(lia)) as P2. pose proof (P 3%nat ltac:(lia)) as P3. pose proof (P 4%nat ltac:(lia)) as P4. pose proof (P 5%nat ltac:(lia)) as P5. pose proof (P 6%nat ltac:(lia)) as P6.
  unfold pyrElem, pyrSplit.
  assert (F3 : pyrFe3 e = m 4%nat + m 5%nat) by (unfold pyrFe3; num). rewrite F3.
  destruct (Rlt_dec (m 4%nat + m 5%nat) 0); [exfalso; less|]. destruct (Rlt_dec (e 26%nat - (m 4%nat + m 5%nat)) 0); [exfalso; less|].
  pick i Hi; num.
Qed.
Lemma rec_clinopyroxene : recovers ("clinopyroxene"%string, ["CaMgSi2O6"%string; "Mg2Si2O6"%string; "CaFeSi2O6"%string; "CaTi0.5Mg0.5AlSiO6"%string; "CaTi0.5Mg0.5FeSiO6"%string; "CaFeAlSiO6"%string; "NaAlSi2O6"%string]).
Proof.
  match goal with |- recovers ?S => open S end.
  pose proof (P 0%nat ltac:(lia)) as P0. pose proof (P 1%nat ltac:(lia)) as P1. pose proof (P 2%nat ltac:(lia)) as P2. pose proof (P 3%nat ltac:(lia)) as P3. pose proof (P 4%nat ltac:(lia)) as P4. pose proof (P 5%nat ltac:(lia)) as P5. pose proof (P 6%nat ltac:(lia)) as P6.
  unfold pyrElem, pyrSplit.
  assert (F3 : pyrFe3 e = m 4%nat + m 5%nat) by (unfold pyrFe3; num). rewrite F3.
  destruct (Rlt_dec (m 4%nat + m 5%nat) 0); [exfalso; less|]. destruct (Rlt_dec (e 26%nat - (m 4%nat + m 5%nat)) 0); [exfalso; less|].
  pick i Hi; num.
Qed.
Lemma rec_cummingtonite : recovers ("cummingtonite"%string, ["Mg7Si8O22(OH)2"%string; "Fe7Si8O22(OH)2"%string]).
Proof.
  match goal with |- recovers ?S => open S end.
  unfold cum, listed. done i Hi.
Qed.
Lemma rec_amphibole : recovers ("amphibole"%string, ["Mg7Si8O22(OH)2"%string; "Fe7Si8O22(OH)2"%string; "Ca2Mg5Si8O22(OH)2"%string]).
Proof.
  match goal with |- recovers ?S => open S end.
  pose proof (P 0%nat ltac:(lia)) as P0. pose proof (P 1%nat ltac:(lia)) as P1. pose proof (P 2%nat ltac:(lia)) as P2.
  unfold aph, listed. cbv zeta.
  match goal with |- context [Rlt_dec ?x 0] => assert (F3 : x = 0) by num; rewrite !F3 end.
  destruct (Rlt_dec 0 0); [exfalso; less|]. destruct (Rlt_dec (e 26%nat - 0) 0); [exfalso; less|].
  done i Hi.
Qed.
Lemma rec_biotite : recovers ("biotite"%string, ["KFe3Si3AlO10(OH)2"%string; "KMg3Si3AlO10(OH)2"%string]).
Proof.
  match goal with |- recovers ?S => open S end.
  unfold bio, listed. done i Hi.
Qed.
Lemma rec_feldspar : recovers ("feldspar"%string, ["NaAlSi3O8"%string; "CaAl2Si2O8"%string; "KAlSi3O8"%string]).
Proof.
  match goal with |- recovers ?S => open S end.
  unfold fld, listed. done i Hi.
Qed.
Lemma rec_nepheline : recovers ("nepheline"%string, ["Na4Al4Si4O16"%string; "K4Al4Si4O16"%string; "Na3Al3Si5O16"%string; "CaNa2Al4Si4O16"%string]).
Proof.
  match goal with |- recovers ?S => open S end.
  unfold nph, listed. done i Hi.
Qed.
Lemma rec_kalsilite : recovers ("kalsilite"%string, ["Na4Al4Si4O16"%string; "K4Al4Si4O16"%string; "Na3Al3Si5O16"%string; "CaNa2Al4Si4O16"%string]).
Proof.
  match goal with |- recovers ?S => open S end.
  unfold kal, listed. done i Hi.
Qed.
Lemma rec_leucite : recovers ("leucite"%string, ["KAlSi2O6"%string; "NaAlSi2O5(OH)2"%string; "NaAlSi2O6"%string]).
Proof.
  match goal with |- recovers ?S => open S end.
  unfold leu, listed. done i Hi.
Qed.
Lemma rec_spinel : recovers ("spinel"%string, ["FeCr2O4"%string; "FeAl2O4"%string; "Fe3O4"%string; "MgAl2O4"%string; "Fe2TiO4"%string]).
Proof.
  match goal with |- recovers ?S => open S end.
  pose proof (P 0%nat ltac:(lia)) as P0. pose proof (P 1%nat ltac:(lia)) as P1. pose proof (P 2%nat ltac:(lia)) as P2. pose proof (P 3%nat ltac:(lia)) as P3. pose proof (P 4%nat ltac:(lia)) as P4.
  unfold spn, listed. cbv zeta.
  assert (F3 : 8 * oxideCat e / 3 - oxideChg e - 2 * e 26%nat = 2 * m 2%nat) by (unfold oxideCat, oxideChg; num). rewrite !F3.
  destruct (Rlt_dec (2 * m 2%nat) 0); [exfalso; less|].
  assert (Pr : (if Req_EM_T (e 26%nat - 2 * m 2%nat + e 12%nat + e 25%nat) 0 then 1 else
    (e 26%nat - 2 * m 2%nat + e 25%nat + e 12%nat + e 27%nat + e 28%nat) / (e 26%nat - 2 * m 2%nat + e 12%nat + e 25%nat)) = 1).
  { destruct (Req_EM_T (e 26%nat - 2 * m 2%nat + e 12%nat + e 25%nat) 0) as [Q|Q]; [reflexivity|].
    replace (e 26%nat - 2 * m 2%nat + e 25%nat + e 12%nat + e 27%nat + e 28%nat) with (e 26%nat - 2 * m 2%nat + e 12%nat + e 25%nat) by (clear Q; num). field. exact Q. }
  rewrite Pr.
  assert (M1 : ((e 26%nat - 2 * m 2%nat) * 1 + e 25%nat * 1 - e 24%nat * 1 / 2 - 2 * m 2%nat / 2 - 2 * e 22%nat * 1) * 1 = m 1%nat) by num. rewrite M1.
  destruct (Rlt_dec (m 1%nat) 0); [exfalso; less|].
  done i Hi.
Qed.
Lemma rec_rhm_oxide5 : recovers ("rhm-oxide"%string, ["MgTiO3"%string; "Fe2O3"%string; "FeTiO3"%string; "MnTiO3"%string; "Al2O3"%string]).
Proof.
  match goal with |- recovers ?S => open S end.
  pose proof (P 0%nat ltac:(lia)) as P0. pose proof (P 1%nat ltac:(lia)) as P1. pose proof (P 2%nat ltac:(lia)) as P2. pose proof (P 3%nat ltac:(lia)) as P3. pose proof (P 4%nat ltac:(lia)) as P4.
  unfold msg, listed, pos. cbv zeta.
  assert (F3 : 6 * oxideCat e / 2 - oxideChg e - 2 * e 26%nat = 2 * m 1%nat) by (unfold oxideCat, oxideChg; num). rewrite !F3.
  destruct (Rlt_dec (2 * m 1%nat / 2) 0); [exfalso; less|]. destruct (Rlt_dec (e 26%nat - 2 * m 1%nat) 0); [exfalso; less|].
  done i Hi.
Qed.
Lemma rec_ortho_oxide : recovers ("ortho-oxide"%string, ["Fe2TiO5"%string; "FeTi2O5"%string; "MgTi2O5"%string]).
Proof.
  match goal with |- recovers ?S => open S end.
  pose proof (P 0%nat ltac:(lia)) as P0. pose proof (P 1%nat ltac:(lia)) as P1. pose proof (P 2%nat ltac:(lia)) as P2.
  unfold oox, listed, pos. cbv zeta.
  assert (F3 : 10 * oxideCat e / 3 - oxideChg e - 2 * e 26%nat = 2 * m 0%nat) by (unfold oxideCat, oxideChg; num). rewrite !F3.
  destruct (Rlt_dec (2 * m 0%nat) 0); [exfalso; less|].
  done i Hi.
Qed.
Lemma rec_fluid : recovers ("fluid"%string, ["H2O"%string; "CO2"%string]).
Proof.
  match goal with |- recovers ?S => open S end.
  unfold flu, listed. done i Hi.
Qed.
Lemma rec_alloy_solid : recovers ("alloy-solid"%string, ["Fe"%string; "Ni"%string]).
Proof.
  match goal with |- recovers ?S => open S end.
  unfold alloy, listed. done i Hi.
Qed.
Lemma rec_alloy_liquid : recovers ("alloy-liquid"%string, ["Fe"%string; "Ni"%string]).
Proof.
  match goal with |- recovers ?S => open S end.
  unfold alloy, listed. done i Hi.
Qed.
Lemma rec_rhm_oxide : recovers ("rhm-oxide"%string, ["MgTiO3"%string; "Fe2O3"%string; "FeTiO3"%string; "MnTiO3"%string]).
Proof.
  match goal with |- recovers ?S => open S end.
  pose proof (P 0%nat ltac:(lia)) as P0. pose proof (P 1%nat ltac:(lia)) as P1. pose proof (P 2%nat ltac:(lia)) as P2. pose proof (P 3%nat ltac:(lia)) as P3.
  unfold rhm, listed, pos. cbv zeta.
  assert (F3 : 6 * oxideCat e / 2 - oxideChg e - 2 * e 26%nat = 2 * m 1%nat) by (unfold oxideCat, oxideChg; num). rewrite !F3.
  destruct (Rlt_dec ((2 * m 1%nat + e 13%nat + e 24%nat) / 2) 0); [exfalso; less|].
  done i Hi.
Qed.
