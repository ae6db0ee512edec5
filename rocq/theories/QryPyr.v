(** C181: the pyroxene recalculation. *)
From Coq Require Import Reals String List Bool Arith ZArith QArith Qcanon Qreals Lia Lra.
From Verif Require Import MassModel InitModel InitProps Tables ElmModel ElmData ElmProps QryModel.
Import List ListNotations.
Local Open Scope R_scope.

Definition pyroxene : list string := ["CaMgSi2O6"; "Mg2Si2O6"; "CaFeSi2O6"; "CaTi0.5Mg0.5AlSiO6"; "CaTi0.5Mg0.5FeSiO6"; "CaFeAlSiO6"; "NaAlSi2O6"]%string.
Lemma pyr_in : In ("clinopyroxene"%string, pyroxene) solutions.
Proof. apply in_sol. vm_compute. reflexivity. Qed.
Ltac atomsRow z :=
  rewrite (atomsIn_val ("clinopyroxene"%string, pyroxene) _ z pyr_in (proj1 (Nat.ltb_lt z 30) eq_refl)); cbn [snd pyroxene length sum nth]; lookup; unfold Q2R; cbn [Qnum Qden].
(** ferric iron by charge balance on four cations and six oxygens *)
Definition ferric (e : nat -> R) : R :=
  let cations := e Na_ + e Mg_ + e Al_ + e Si_ + e Ca_ + e Ti_ + e Cr_ + e Mn_ + e Fe_ in
  let charge := e Na_ + 2 * e Mg_ + 3 * e Al_ + 4 * e Si_ + 2 * e Ca_ + 4 * e Ti_ + 3 * e Cr_ + 2 * e Mn_ + 2 * e Fe_ in
  3 * cations - charge.
Definition clamped (x lo hi : R) : R := Rmin (Rmax x lo) hi.
Lemma pyrSplit_eq e : 0 <= e Fe_ -> pyrSplit e = (clamped (ferric e) 0 (e Fe_), e Fe_ - clamped (ferric e) 0 (e Fe_)).
Proof.
  intros P. assert (E : pyrFe3 e = ferric e) by (unfold pyrFe3, ferric; ring). unfold pyrSplit. rewrite E. clear E. unfold clamped, Rmax, Rmin. generalize (ferric e). intros x.
  destruct (Rlt_dec x 0); destruct (Rlt_dec _ 0); destruct (Rle_dec x 0); repeat destruct (Rle_dec _ _); try (exfalso; lra); f_equal; lra.
Qed.
(** Whatever the elements, the end members found hold the same Ca, Na, Ti and Mg, Mn with Fe, Cr with Al; and the same Si
    exactly when the charge balance gives a ferric iron between 0 and all iron *)
Theorem C181_cations : forall e, 0 <= e Fe_ -> let m := pyrElem e in
  atomsIn pyroxene m Ca_ = e Ca_ /\ atomsIn pyroxene m Na_ = e Na_ /\ atomsIn pyroxene m Ti_ = e Ti_ /\ atomsIn pyroxene m Mg_ = e Mg_
  /\ atomsIn pyroxene m Fe_ = e Fe_ + e Mn_ /\ atomsIn pyroxene m Al_ = e Al_ + e Cr_
  /\ (atomsIn pyroxene m Si_ = e Si_ <-> 0 <= ferric e <= e Fe_).
Proof.
  intros e P m. assert (M : forall i, m i = pyrElem e i) by reflexivity.
  assert (V : forall z, (z < 30)%nat -> atomsIn (snd ("clinopyroxene"%string, pyroxene)) m z = atomsIn pyroxene m z) by reflexivity.
  rewrite <- !V by lia. atomsRow 20%nat. atomsRow 11%nat. atomsRow 22%nat. atomsRow 12%nat. atomsRow 26%nat. atomsRow 13%nat. atomsRow 14%nat.
  rewrite (M 0%nat), (M 1%nat), (M 2%nat), (M 3%nat), (M 4%nat), (M 5%nat), (M 6%nat). unfold pyrElem. rewrite (pyrSplit_eq e P). cbv beta iota zeta.
  set (f := clamped (ferric e) 0 (e Fe_)). do 6 (split; [lra|]).
  assert (F : f = ferric e <-> 0 <= ferric e <= e Fe_).
  { unfold f, clamped, Rmax, Rmin. destruct (Rle_dec (ferric e) 0); destruct (Rle_dec _ _); split; intros; lra. }
  rewrite <- F. unfold ferric. split; intros; lra.
Qed.
(** and then ferrous iron with manganese, and ferric iron, are where the formulas have them *)
Theorem C181_valence : forall e, 0 <= ferric e <= e Fe_ -> let m := pyrElem e in
  m 2%nat = e Fe_ - ferric e + e Mn_ /\ m 4%nat + m 5%nat = ferric e.
Proof.
  intros e P m. unfold m, pyrElem. rewrite pyrSplit_eq by lra.
  assert (F : clamped (ferric e) 0 (e Fe_) = ferric e) by (unfold clamped, Rmax, Rmin; destruct (Rle_dec (ferric e) 0); destruct (Rle_dec _ _); lra).
  rewrite F. split; lra.
Qed.
(** too much charge: iron all ferrous, and silicon is lost *)
Theorem C181_case : exists e, (forall z, 0 <= e z) /\ 0 <= ferric e <= e Fe_ /\ exists e', (forall z, 0 <= e' z) /\ ferric e' < 0 /\ atomsIn pyroxene (pyrElem e') Si_ < e' Si_.
Proof.
  exists (fun z => match z with 20%nat => 1 | 26%nat => 1 | 13%nat => 1 | 14%nat => 1 | _ => 0 end). split; [intros z; do 27 (destruct z as [|z]; [cbv; lra|]); lra|].
  split; [unfold ferric; lra|].
  exists (fun z => match z with 20%nat => 1 | 26%nat => 1 | 14%nat => 3 | _ => 0 end). split; [intros z; do 27 (destruct z as [|z]; [cbv; lra|]); lra|].
  split; [unfold ferric; lra|].
  match goal with |- atomsIn _ (pyrElem ?e) _ < _ => change (atomsIn (snd ("clinopyroxene"%string, pyroxene)) (pyrElem e) 14 < 3); set (e' := e) end.
  atomsRow 14%nat. unfold pyrElem. rewrite (pyrSplit_eq e') by (cbv; lra). cbv beta iota zeta.
  assert (F : clamped (ferric e') 0 (e' 26%nat) = 0) by (unfold clamped, Rmax, Rmin, ferric, e'; destruct (Rle_dec _ _); destruct (Rle_dec _ _); lra).
  rewrite F. unfold e'. lra.
Qed.
