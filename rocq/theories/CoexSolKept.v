(** C152, C154: no phase is passed over, and the composition added is the most distant of those found. *)
From Coq Require Import Reals List Bool Arith Lia Lra FunctionalExtensionality.
From Verif Require Import MassModel MassSpec MassProofs MassOps MassDrop MassProps NashModel NashProps CoexModel CoexProps CoexSolModel CoexSolProps CoexSolMore.
Import List ListNotations.
Open Scope R_scope.

Section Call.
Variable tab : Tab.
Variable solid : nat -> Solid.
Variable kind : nat -> Kind.
Variables t p : R.
Variable h0 : nat -> R.
Hypothesis Lay : layout tab.
Hypothesis Ph : forall i, (i < npc tab)%nat -> (1 < na tab i)%nat -> isPhase tab i = true.
Notation visit := (visit tab solid kind t p h0).
Notation visits := (visits tab solid kind t p h0).
Notation checkSolids := (checkSolids tab solid kind t p h0).

(** what phase k is made of *)
Definition same (k : nat) (s s' : St) : Prop := nSol s' k = nSol s k /\ forall c col, (k <= c <= k + na tab k)%nat -> solC s' c col = solC s c col.
Lemma same_refl k s : same k s s.
Proof. split; auto. Qed.
Lemma same_trans k s s1 s2 : same k s s1 -> same k s1 s2 -> same k s s2.
Proof. intros (A & B) (C & D). split; [now rewrite C|]. intros c col H. now rewrite D, B. Qed.
Lemma visits_same k l s s' f : (k < npc tab)%nat -> (1 < na tab k)%nat -> ~ In k l -> (forall i, In i l -> (i < npc tab)%nat) -> visits l s s' f -> same k s s'.
Proof.
  intros Hk N1 Ni Hl V. induction V as [s|i l s s1 s2 f g V1 V2 IH]; [apply same_refl|].
  apply same_trans with s1; [|apply IH; [intros I; apply Ni; now right|intros j I; apply Hl; now right]]. split.
  - destruct (visit_counts tab solid kind t p h0 i s s1 f V1) as (A & _). apply A. intros E. subst i. apply Ni. now left.
  - intros c col Hc. apply (visit_other tab solid kind t p h0 Lay Ph i s s1 f k); auto; [apply Hl; now left|]. intros E. subst i. apply Ni. now left.
Qed.
Lemma visited k l s s' f : (k < npc tab)%nat -> (1 < na tab k)%nat -> In k l -> NoDup l -> (forall i, In i l -> (i < npc tab)%nat) -> visits l s s' f ->
  exists s0 s1 g, same k s s0 /\ visit k s0 s1 g /\ same k s1 s'.
Proof.
  intros Hk N1 Ik ND Hl V. induction V as [s|i l s s1 s2 f g V1 V2 IH]; [destruct Ik|]. inversion ND as [|i' l' Ni ND']; subst.
  assert (Hl' : forall j, In j l -> (j < npc tab)%nat) by (intros j I; apply Hl; now right).
  destruct (Nat.eq_dec i k) as [E|Ne].
  - subst i. exists s, s1, f. split; [apply same_refl|split; [exact V1|]]. apply (visits_same k l s1 s2 g); auto.
  - destruct Ik as [E|Ik]; [contradiction|]. destruct (IH Ik ND' Hl') as (s0 & s3 & h & A & B & C). exists s0, s3, h. split; [|split; [exact B|exact C]]. apply same_trans with s1; [|exact A]. split.
    + destruct (visit_counts tab solid kind t p h0 i s s1 f V1) as (Q & _). apply Q. congruence.
    + intros c col Hc. apply (visit_other tab solid kind t p h0 Lay Ph i s s1 f k); auto. apply Hl. now left.
Qed.
Lemma same_instances k s s' : (1 <= na tab k)%nat -> same k s s' -> nSol s' k = nSol s k /\ forall n j, (j < na tab k)%nat -> solC s' (k + 1 + j)%nat n = solC s (k + 1 + j)%nat n.
Proof. intros H (A & B). split; [exact A|]. intros n j Hj. apply B. lia. Qed.
Lemma far_best X ref l x0 y : In y (x0 :: l) -> dist2S X ref y <= dist2S X ref (farthestS X ref x0 l).
Proof.
  unfold farthestS. revert x0 y. induction l as [|z l IH]; intros x0 y; cbn [fold_left].
  - intros [E|[]]. subst. lra.
  - intros I. destruct (Rlt_dec (dist2S X ref x0) (dist2S X ref z)) as [L|L].
    + destruct I as [E|I]; [|now apply IH]. subst y. apply Rle_trans with (dist2S X ref z); [lra|]. apply IH. now left.
    + destruct I as [E|[E|I]]; [subst; apply IH; now left| |apply IH; now right]. subst z. apply Rle_trans with (dist2S X ref x0); [lra|]. apply IH. now left.
Qed.
Lemma scan_none X ms : scanS X t p h0 ms None -> Forall (fun m => searchesS X t p h0 m []) ms.
Proof. intros S. remember None as o eqn:E. revert E. induction S; intros E; [constructor|constructor; auto|discriminate]. Qed.
Lemma scan_some X ms x : scanS X t p h0 ms (Some x) -> exists n m z cs, nth_error ms n = Some m /\ searchesS X t p h0 m (z :: cs) /\ x = farthestS X (sR X m) z cs /\
  forall n' m', (n' < n)%nat -> nth_error ms n' = Some m' -> searchesS X t p h0 m' [].
Proof.
  intros S. remember (Some x) as o eqn:E. revert E. induction S as [|m ms o S1 S2 IH|m ms z cs S1]; intros E; [discriminate E| |].
  - destruct (IH E) as (n & m0 & z & cs & A & B & C & D). exists (Datatypes.S n), m0, z, cs. split; [exact A|split; [exact B|split; [exact C|]]].
    intros [|n'] m' Hn Em; [injection Em as <-; exact S1|]. apply (D n'); [lia|exact Em].
  - injection E as <-. exists 0%nat, m, z, cs. split; [reflexivity|split; [exact S1|split; [reflexivity|]]]. intros n' m' H. lia.
Qed.
Lemma inst_nth k s n m : nth_error (instances k s) n = Some m -> (n < nSol s k)%nat /\ m = fun j => solC s (k + 1 + j)%nat n.
Proof.
  unfold instances. intros E. assert (L : (n < nSol s k)%nat). { assert (Q : nth_error (map (fun ns k0 => solC s (k + 1 + k0)%nat ns) (seq 0 (nSol s k))) n <> None) by congruence. apply nth_error_Some in Q. now rewrite map_length, seq_length in Q. }
  split; [exact L|]. rewrite nth_error_map in E. rewrite (nth_error_nth' _ 0%nat) in E by (rewrite seq_length; exact L). rewrite seq_nth in E by exact L. cbn in E. now injection E as <-.
Qed.
Lemma none_somes {A} (l : list (option A)) : somes l = [] -> Forall (fun o => o = None) l.
Proof. induction l as [|[a|] l IH]; intros E; [constructor|discriminate E|constructor; auto]. Qed.

(** phases left alone by the test *)
Definition restricted (k : Kind) (n : nat) : Prop := k = Orthopyroxene \/ (k = Feldspar /\ (2 <= n)%nat) \/ (k = Clinopyroxene /\ (3 <= n)%nat).

(** a phase to which nothing was added has been searched from every instance, towards every end-member in it, in vain *)
Theorem C152_searched : forall s s' found k, checkSolids s s' found -> 0 < t -> 0 <= p -> (k < npc tab)%nat -> (1 < na tab k)%nat -> ~ restricted (kind k) (nSol s k) -> nSol s' k = nSol s k ->
  exists s0, same k s s0 /\ forall n e, (n < nSol s k)%nat -> let m := fun j => solC s0 (k + 1 + j)%nat n in (e < sNa (solid k))%nat -> m e <> 0 -> trialS (solid k) t p h0 m e None.
Proof.
  intros s s' found k C Ht Hp Hk N1 NR Eq. unfold CoexSolModel.checkSolids in C. destruct (Rle_dec t 0) as [?Q|_]; [lra|]. destruct (Rlt_dec p 0) as [?Q|_]; [lra|].
  destruct (visited k (seq 0 (npc tab)) s s' found Hk N1 ltac:(apply in_seq; lia) (seq_NoDup (npc tab) 0) ltac:(intros i I; apply in_seq in I; lia) C) as (s0 & s1 & g & A & V & B).
  exists s0. split; [exact A|]. pose proof (visit_counts tab solid kind t p h0 k s0 s1 g V) as (_ & _ & _ & _ & Fg).
  unfold CoexSolModel.visit in V. destruct (Nat.leb_spec (na tab k) 1) as [|_]; [lia|]. rewrite (proj1 A) in V.
  assert (Bl : blocked (kind k) (nSol s k) = false).
  { destruct (blocked (kind k) (nSol s k)) eqn:Bl; auto. exfalso. apply NR. unfold restricted. destruct (kind k); unfold blocked in Bl; [now left|right; left; apply Nat.leb_le in Bl; auto|right; right; apply Nat.leb_le in Bl; auto|discriminate]. }
  rewrite Bl in V. destruct V as ([x|] & Sc & V).
  { destruct V as (a & _ & _ & Eg). exfalso. apply (proj1 Fg Eg). now rewrite <- (proj1 B), Eq, (proj1 A). }
  intros n e Hn m He Ne. apply scan_none in Sc. rewrite Forall_forall in Sc.
  assert (I : In m (instances k s0)). { unfold instances. rewrite (proj1 A). apply in_map_iff. exists n. split; [reflexivity|]. apply in_seq. lia. }
  destruct (Sc m I) as (l & F2 & El). symmetry in El. apply none_somes in El.
  assert (Ie : In e (presentS (solid k) m)). { unfold presentS. apply filter_In. split; [apply in_seq; lia|]. unfold LiqModel.isZ. destruct (Req_EM_T (m e) 0); [contradiction|reflexivity]. }
  clear - F2 El Ie. induction F2 as [|i o is l T F IH]; [destruct Ie|]. inversion El; subst. destruct Ie as [E|Ie]; [subst; exact T|]. now apply IH.
Qed.
(** the new instance has the composition most distant from the instance tested, among those found; instances before it gave none *)
Theorem C154_most_distant : forall s s' found k, checkSolids s s' found -> (k < npc tab)%nat -> (1 < na tab k)%nat -> nSol s' k <> nSol s k ->
  exists s0 n x cs a, same k s s0 /\ (n < nSol s k)%nat /\
    let m := fun j => solC s0 (k + 1 + j)%nat n in
    searchesS (solid k) t p h0 m cs /\ In x cs /\
    (forall y, In y cs -> sum (sNr (solid k)) (fun i => (y i - sR (solid k) m i) * (y i - sR (solid k) m i)) <= sum (sNr (solid k)) (fun i => (x i - sR (solid k) m i) * (x i - sR (solid k) m i))) /\
    (forall n', (n' < n)%nat -> searchesS (solid k) t p h0 (fun j => solC s0 (k + 1 + j)%nat n') []) /\
    solC s' k (nSol s k) = a /\ forall e, (e < na tab k)%nat -> solC s' (k + 1 + e)%nat (nSol s k) = sX (solid k) x e * a.
Proof.
  intros s s' found k C Hk N1 Df. unfold CoexSolModel.checkSolids in C. destruct (Rle_dec t 0) as [_|_]; [destruct C as (E & _); subst; now elim Df|]. destruct (Rlt_dec p 0) as [_|_]; [destruct C as (E & _); subst; now elim Df|].
  destruct (visited k (seq 0 (npc tab)) s s' found Hk N1 ltac:(apply in_seq; lia) (seq_NoDup (npc tab) 0) ltac:(intros i I; apply in_seq in I; lia) C) as (s0 & s1 & g & A & V & B).
  assert (Df0 : nSol s1 k <> nSol s0 k) by (rewrite (proj1 A), <- (proj1 B); exact Df).
  pose proof (visit_cases tab solid kind t p h0 k s0 s1 g V) as Vc. unfold CoexSolModel.visit in V. destruct (Nat.leb_spec (na tab k) 1) as [|_]; [lia|].
  destruct (blocked (kind k) (nSol s0 k)); [destruct V as (E & _); subst; now elim Df0|]. destruct V as ([x|] & Sc & V); [|destruct V as (E & _); subst; now elim Df0].
  destruct V as (a & Am & E & _). assert (Pos : (0 < nSol s0 k)%nat) by (destruct Vc as [(E' & _)|(_ & _ & _ & P & _)]; [rewrite E' in Df0; now elim Df0|exact P]).
  destruct (scan_some _ _ _ Sc) as (n & m & z & cs & En & Se & Ex & Lo). apply inst_nth in En. destruct En as (Ln & Em). subst m.
  exists s0, n, x, (z :: cs), a. split; [exact A|]. split; [rewrite <- (proj1 A); exact Ln|]. cbv zeta. split; [exact Se|]. split; [rewrite Ex; apply farthest_inS|]. split.
  { intros y Iy. pose proof (far_best (solid k) (sR (solid k) (fun j => solC s0 (k + 1 + j)%nat n)) cs z y Iy) as Q. rewrite <- Ex in Q. exact Q. }
  split.
  { intros n' Hn'. apply (Lo n'); [exact Hn'|]. unfold instances. rewrite nth_error_map. rewrite (nth_error_nth' _ 0%nat) by (rewrite seq_length; lia). rewrite seq_nth by lia. reflexivity. }
  destruct (addSecondSolid_cells tab k (sX (solid k) x) a s0 Pos) as (_ & _ & _ & D & _). rewrite <- E in D. rewrite <- (proj1 A). split.
  - rewrite (proj2 B) by lia. rewrite D, Nat.eqb_refl. unfold cell. now rewrite Nat.eqb_refl.
  - intros e He. rewrite (proj2 B) by lia. rewrite D. destruct (Nat.eqb_spec (k + 1 + e) k); [lia|]. destruct (Nat.ltb_spec k (k + 1 + e)), (Nat.leb_spec (k + 1 + e) (k + na tab k)); try lia. cbn [andb].
    unfold cell. rewrite Nat.eqb_refl. do 2 f_equal. lia.
Qed.
End Call.
