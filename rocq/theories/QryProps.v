(** C175-C184: the property queries. *)
From Coq Require Import Reals QArith Qreals String Bool Arith Lia Lra.
From Coquelicot Require Import Coquelicot.
From Verif Require Import RealTac Sym MassModel MassSpec MassProofs ReportModel QryModel QrySpec.
From Coq Require Import List. Import ListNotations.
Local Open Scope R_scope.

(** ** C175, C176: a name that is not a phase *)
Section Failure.
Variables (tab : Tab) (oxToElm : nat -> nat -> R) (liq : Soln) (redo : option (R -> R -> (nat -> R) -> nat -> R)) (same : nat -> option nat).
(** whatever is asked, and whatever the flag held, a caller who passes an array reads "no failure" *)
Theorem C175_refuted failure found t p comp a number mem :
  fst (getPhaseProperties tab oxToElm liq redo failure found t p comp (Some a) mem) = false
  /\ fst (getMolarProperties liq redo failure found t p comp (Some a) mem) = false
  /\ fst (getEndMemberProperties tab oxToElm liq redo failure found t p comp (Some a) number mem) = false
  /\ fst (getOxideProperties tab oxToElm liq redo same failure found t p comp (Some a) number mem) = false.
Proof. repeat split. Qed.
(** an unknown name changes nothing but the flag, and no call touches another array *)
Theorem C176_unknown failure t p comp a number mem :
  snd (getPhaseProperties tab oxToElm liq redo failure None t p comp (Some a) mem) = mem
  /\ snd (getMolarProperties liq redo failure None t p comp (Some a) mem) = mem
  /\ snd (getEndMemberProperties tab oxToElm liq redo failure None t p comp (Some a) number mem) = (number, mem)
  /\ snd (getOxideProperties tab oxToElm liq redo same failure None t p comp (Some a) number mem) = (number, mem).
Proof. repeat split. Qed.
Lemma store_other a b v mem : b <> a -> store a v mem b = mem b.
Proof. intros N. unfold store. now rewrite (proj2 (Nat.eqb_neq b a) N). Qed.
Lemma store_same a v mem : store a v mem a = v.
Proof. unfold store. now rewrite Nat.eqb_refl. Qed.
(** the number of cells that a call may write *)
Definition width (found : option Entry) : nat :=
  match found with None => 0 | Some Liquid => 11 + sNa liq | Some (Pure _ _) => 11 | Some (Solution s) => 11 + sNa s end.
Definition members (found : option Entry) : nat :=
  match found with None => 0 | Some Liquid => sNa liq | Some (Pure _ _) => 1 | Some (Solution s) => sNa s end.
Definition oxides (found : option Entry) : nat := match found with Some Liquid => nc tab | _ => 0 end.
Lemma written_out props n mu old c : (11 + n <= c)%nat -> written props n mu old c = old c.
Proof. intros L. unfold written. rewrite (proj2 (Nat.ltb_ge c 11)), (proj2 (Nat.ltb_ge c (11 + n))) by lia. reflexivity. Qed.
Lemma fill_out n v old c : (4 * n <= c)%nat -> fill n v old c = old c.
Proof. intros L. unfold fill. now rewrite (proj2 (Nat.ltb_ge c (4 * n))) by lia. Qed.
Theorem C176_frame failure found t p comp a number mem b c :
  (b <> a \/ (width found <= c)%nat ->
     cell (snd (getPhaseProperties tab oxToElm liq redo failure found t p comp (Some a) mem)) b c = cell mem b c
     /\ cell (snd (getMolarProperties liq redo failure found t p comp (Some a) mem)) b c = cell mem b c)
  /\ (b <> a \/ (4 * members found <= c)%nat ->
     cell (snd (snd (getEndMemberProperties tab oxToElm liq redo failure found t p comp (Some a) number mem))) b c = cell mem b c)
  /\ (b <> a \/ (4 * oxides found <= c)%nat ->
     cell (snd (snd (getOxideProperties tab oxToElm liq redo same failure found t p comp (Some a) number mem))) b c = cell mem b c).
Proof.
  unfold cell, getPhaseProperties, getMolarProperties, getEndMemberProperties, getOxideProperties. cbn [fst snd at_].
  assert (S : forall v, b <> a \/ v c = mem a c -> store a v mem b c = mem b c).
  { intros v H. unfold store. destruct (Nat.eqb_spec b a) as [E|E]; [subst b|reflexivity]. destruct H as [H|H]; [congruence|exact H]. }
  split; [|split]; intros H.
  - destruct found as [[| mw cur | s]|]; cbn [phaseProperties_ molarProperties_ width] in *; [| | |split; reflexivity];
      (split; apply S; (destruct H as [H|H]; [left; exact H|right; apply written_out; lia])).
  - destruct found as [[| mw cur | s]|]; cbn [endMemberProperties_ members snd] in *; [| | |reflexivity];
      (apply S; (destruct H as [H|H]; [left; exact H|right; apply fill_out; lia])).
  - destruct found as [[| mw cur | s]|]; cbn [oxideProperties_ oxides snd] in *; try reflexivity.
    apply S; (destruct H as [H|H]; [left; exact H|right; apply fill_out; lia]).
Qed.
End Failure.

(** ** C177: extensive and intensive numbers *)
Section Numbers.
Variables (tab : Tab) (oxToElm : nat -> nat -> R) (liq : Soln).
Notation amounts := (moles tab oxToElm None).
Notation phaseQuery := (getPhaseProperties tab oxToElm liq None).
Notation molarQuery := (getMolarProperties liq None).

Lemma elements_times k grams z : elements tab oxToElm (times k grams) z = k * elements tab oxToElm grams z.
Proof. unfold elements, times. rewrite <- sum_scal. apply sum_ext. intros i _. unfold Rdiv. ring. Qed.
Lemma liqMoles_times k grams i : liqMoles tab (times k grams) i = k * liqMoles tab grams i.
Proof. unfold liqMoles, times. rewrite <- sum_scal. apply sum_ext. intros j _. unfold Rdiv. ring. Qed.
Lemma moles_times b s t p k grams i : 0 < k -> (b = false -> proportional (sElem s)) -> amounts b s t p (times k grams) i = k * amounts b s t p grams i.
Proof.
  intros K P. unfold moles. destruct b; cbn [onPath].
  - apply liqMoles_times.
  - apply (P eq_refl k _ _ i K). apply elements_times.
Qed.
Lemma total_times s t p k m m' q : 0 < k -> scaleFree s -> 0 < sum (sNa s) m -> (forall i, m' i = k * m i) -> total s t p m' q = k * total s t p m q.
Proof.
  intros K F N E. destruct (F k m m' K N E) as [G _]. unfold total. rewrite G.
  rewrite (sum_ext _ m' (fun i => k * m i)) by (intros; apply E). rewrite (sum_ext _ (fun i => m' i * _) (fun i => k * (m i * sCur s i q t p))) by (intros; rewrite E; ring).
  rewrite !sum_scal. ring.
Qed.
Lemma scale_times q k x : scale q (k * x) = k * scale q x.
Proof. unfold scale. destruct (_ || _); ring. Qed.
Lemma cell_phase failure e t p grams a mem c :
  cell (snd (phaseQuery failure (Some e) t p grams (Some a) mem)) a c =
  match e with
  | Liquid => let m := amounts true liq t p grams in written (total liq t p m) (sNa liq) (potential liq t p m) (mem a) c
  | Pure mw cur => written (fun q => sum (nc tab) grams / mw * cur q t p) 0 (fun _ => 0) (mem a) c
  | Solution s => let m := amounts false s t p grams in written (total s t p m) (sNa s) (potential s t p m) (mem a) c
  end.
Proof. unfold cell, getPhaseProperties. cbn [snd at_]. destruct e; cbn [phaseProperties_]; now rewrite store_same. Qed.
Lemma cell_molar failure e t p comp a mem c :
  cell (snd (molarQuery failure (Some e) t p comp (Some a) mem)) a c =
  match e with
  | Liquid => written (molar liq t p comp) (sNa liq) (potential liq t p comp) (mem a) c
  | Pure mw cur => written (fun q => cur q t p) 0 (fun _ => 0) (mem a) c
  | Solution s => written (molar s t p comp) (sNa s) (potential s t p comp) (mem a) c
  end.
Proof. unfold cell, getMolarProperties. cbn [snd at_]. destruct e; cbn [molarProperties_ onPath]; now rewrite store_same. Qed.
Lemma written_prop props n mu old q : (q < 11)%nat -> written props n mu old q = scale q (props q).
Proof. intros L. unfold written. now rewrite (proj2 (Nat.ltb_lt q 11) L). Qed.
Lemma written_mu props n mu old i : (i < n)%nat -> written props n mu old (11 + i)%nat = mu i.
Proof.
  intros L. unfold written. rewrite (proj2 (Nat.ltb_ge (11 + i) 11)) by lia. rewrite (proj2 (Nat.ltb_lt (11 + i)%nat (11 + n))) by lia. f_equal. lia.
Qed.

(** Components of the phase found, and their amounts in the given grams *)
Definition componentsOf (e : Entry) : nat := match e with Liquid => sNa liq | Pure _ _ => 0 | Solution s => sNa s end.
Definition amountsOf (e : Entry) (t p : R) (grams : Arr) : nat -> R :=
  match e with Liquid => liqMoles tab grams | Pure _ _ => fun _ => 0 | Solution s => sElem s (elements tab oxToElm grams) end.
Definition regular (e : Entry) : Prop := match e with Liquid => scaleFree liq | Pure _ _ => True | Solution s => scaleFree s /\ proportional (sElem s) end.
Theorem C177_extensive e failure failure' t p grams k a mem mem' : 0 < k -> regular e ->
  (componentsOf e <> 0%nat -> 0 < sum (componentsOf e) (amountsOf e t p grams)) ->
  (forall q, (q < 11)%nat ->
     cell (snd (phaseQuery failure (Some e) t p (times k grams) (Some a) mem)) a q
     = k * cell (snd (phaseQuery failure' (Some e) t p grams (Some a) mem')) a q)
  /\ (forall i, (i < componentsOf e)%nat ->
     cell (snd (phaseQuery failure (Some e) t p (times k grams) (Some a) mem)) a (11 + i)%nat
     = cell (snd (phaseQuery failure' (Some e) t p grams (Some a) mem')) a (11 + i)%nat).
Proof.
  intros K Reg N.
  assert (Core : forall b s, scaleFree s -> (b = false -> proportional (sElem s)) -> (sNa s <> 0%nat -> 0 < sum (sNa s) (amounts b s t p grams)) -> sNa s <> 0%nat ->
    (forall q, total s t p (amounts b s t p (times k grams)) q = k * total s t p (amounts b s t p grams) q)
    /\ (forall i, (i < sNa s)%nat -> potential s t p (amounts b s t p (times k grams)) i = potential s t p (amounts b s t p grams) i)).
  { intros b s F P NN N0. pose proof (moles_times b s t p k grams) as E. split; intros.
    - apply (total_times s t p k (amounts b s t p grams)); auto.
    - unfold potential. destruct (F k (amounts b s t p grams) (amounts b s t p (times k grams)) K (NN N0) (fun i => E i K P)) as [_ G]. now rewrite G. }
  assert (Zero : forall b s, sNa s = 0%nat -> forall q g, total s t p (amounts b s t p g) q = 0) by (intros b s Z q g; unfold total; rewrite Z; cbn; ring).
  destruct e as [|mw cur|s]; cbn [regular componentsOf amountsOf] in *.
  - split; intros; rewrite !cell_phase; cbv zeta.
    + rewrite !written_prop by assumption. rewrite <- scale_times. f_equal. destruct (Nat.eq_dec (sNa liq) 0) as [Z|Z]; [rewrite !Zero by assumption; ring|].
      apply Core; auto. discriminate.
    + rewrite !written_mu by assumption. apply Core; auto; [discriminate|lia].
  - split; intros; [|lia]. rewrite !cell_phase. cbv zeta. rewrite !written_prop by assumption. rewrite <- scale_times. f_equal.
    unfold times. rewrite sum_scal. unfold Rdiv. ring.
  - destruct Reg as [F P]. split; intros; rewrite !cell_phase; cbv zeta.
    + rewrite !written_prop by assumption. rewrite <- scale_times. f_equal. destruct (Nat.eq_dec (sNa s) 0) as [Z|Z]; [rewrite !Zero by assumption; ring|].
      apply Core; auto.
    + rewrite !written_mu by assumption. apply Core; auto; lia.
Qed.

(** ** C180: per mole *)
Lemma molar_total s t p m q : sum (sNa s) m <> 0 -> molar s t p m q * sum (sNa s) m = total s t p m q.
Proof.
  intros N. unfold molar, total. rewrite (sum_ext _ (fun i => m i * sCur s i q t p / sum (sNa s) m) (fun i => m i * sCur s i q t p * / sum (sNa s) m)) by reflexivity.
  rewrite sum_scal_r. field. exact N.
Qed.
(** the two queries, asked about the same phase: the grams, and the moles of components in them *)
Theorem C180_molar e failure failure' t p grams a mem mem' : (componentsOf e <> 0%nat) -> sum (componentsOf e) (amountsOf e t p grams) <> 0 ->
  (forall q, (q < 11)%nat ->
     cell (snd (molarQuery failure (Some e) t p (amountsOf e t p grams) (Some a) mem)) a q
     = cell (snd (phaseQuery failure' (Some e) t p grams (Some a) mem')) a q / sum (componentsOf e) (amountsOf e t p grams))
  /\ (forall i, (i < componentsOf e)%nat ->
     cell (snd (molarQuery failure (Some e) t p (amountsOf e t p grams) (Some a) mem)) a (11 + i)%nat
     = cell (snd (phaseQuery failure' (Some e) t p grams (Some a) mem')) a (11 + i)%nat).
Proof.
  intros C N. assert (Core : forall s m, sum (sNa s) m <> 0 -> forall q, scale q (molar s t p m q) = scale q (total s t p m q) / sum (sNa s) m).
  { intros s m N' q. rewrite <- molar_total by assumption. rewrite (Rmult_comm (molar s t p m q)), scale_times. field. exact N'. }
  destruct e as [|mw cur|s]; cbn [componentsOf amountsOf] in *; [|congruence|];
    (split; intros; rewrite cell_molar, cell_phase; cbv zeta; [rewrite !written_prop by assumption; now apply Core|now rewrite !written_mu by assumption]).
Qed.
Theorem C180_pure failure failure' mw cur t p grams a mem mem' q : (q < 11)%nat -> 0 < mw ->
  cell (snd (phaseQuery failure' (Some (Pure mw cur)) t p grams (Some a) mem')) a q
  = sum (nc tab) grams / mw * cell (snd (molarQuery failure (Some (Pure mw cur)) t p grams (Some a) mem)) a q.
Proof. intros L M. rewrite cell_molar, cell_phase, !written_prop by assumption. now rewrite scale_times. Qed.

(** ** C179: the Gibbs energy is the sum of amounts times potentials *)
Definition eulerAt (s : Soln) (t p : R) (m : nat -> R) : Prop :=
  sMix s 0%nat t p (sR s m) * sum (sNa s) m = sum (sNa s) (fun i => m i * sMu s t p (sR s m) i).
Lemma total_euler s t p m : eulerAt s t p m -> total s t p m 0%nat = sum (sNa s) (fun i => m i * potential s t p m i).
Proof.
  intros E. unfold total. rewrite E, <- sum_plus. apply sum_ext. intros i _. unfold potential. ring.
Qed.
Definition solnOf (e : Entry) : option Soln := match e with Liquid => Some liq | Pure _ _ => None | Solution s => Some s end.
Lemma C179_general e s failure t p grams a mem : solnOf e = Some s -> eulerAt s t p (amountsOf e t p grams) ->
  let after := snd (phaseQuery failure (Some e) t p grams (Some a) mem) in
  cell after a 0 = sum (componentsOf e) (fun i => amountsOf e t p grams i * cell after a (11 + i)%nat).
Proof.
  intros S E. cbv zeta. destruct e as [|mw cur|s']; cbn [solnOf componentsOf amountsOf] in *; [|discriminate|]; injection S as <-.
  - rewrite cell_phase. cbv zeta. rewrite written_prop by lia. change (scale 0 ?x) with x. rewrite total_euler by exact E. apply sum_ext. intros i L.
    rewrite cell_phase. cbv zeta. now rewrite written_mu by assumption.
  - rewrite cell_phase. cbv zeta. rewrite written_prop by lia. change (scale 0 ?x) with x. rewrite total_euler by exact E. apply sum_ext. intros i L.
    rewrite cell_phase. cbv zeta. now rewrite written_mu by assumption.
Qed.

(** ** C178: the eleven numbers belong together *)
Lemma consistent_plus f g t p : consistent f t p -> consistent g t p -> consistent (fun q t p => f q t p + g q t p) t p.
Proof.
  intros F G. destruct F as [f1 f2 f3 f4 f5 f6 f7 f8 f9 f10], G as [g1 g2 g3 g4 g5 g6 g7 g8 g9 g10]. constructor; cbv beta.
  - rewrite f1, g1. ring.
  - eapply is_derive_eq'; [exact (is_derive_plus (V := R_NormedModule) _ _ _ _ _ f2 g2)|]. cbn. ring.
  - exact (is_derive_plus (V := R_NormedModule) _ _ _ _ _ f3 g3).
  - eapply is_derive_eq'; [exact (is_derive_plus (V := R_NormedModule) _ _ _ _ _ f4 g4)|]. cbn. unfold Rdiv. ring.
  - exact (is_derive_plus (V := R_NormedModule) _ _ _ _ _ f5 g5).
  - exact (is_derive_plus (V := R_NormedModule) _ _ _ _ _ f6 g6).
  - exact (is_derive_plus (V := R_NormedModule) _ _ _ _ _ f7 g7).
  - exact (is_derive_plus (V := R_NormedModule) _ _ _ _ _ f8 g8).
  - exact (is_derive_plus (V := R_NormedModule) _ _ _ _ _ f9 g9).
  - exact (is_derive_plus (V := R_NormedModule) _ _ _ _ _ f10 g10).
Qed.
Lemma consistent_scal k f t p : consistent f t p -> consistent (fun q t p => k * f q t p) t p.
Proof.
  intros F. destruct F as [f1 f2 f3 f4 f5 f6 f7 f8 f9 f10]. constructor; cbv beta.
  - rewrite f1. ring.
  - eapply is_derive_eq'; [exact (is_derive_scal _ _ k _ f2)|]. cbn. ring.
  - exact (is_derive_scal _ _ k _ f3).
  - eapply is_derive_eq'; [exact (is_derive_scal _ _ k _ f4)|]. match goal with |- ?a = ?b => change (@eq R a b) end. unfold Rdiv. ring.
  - exact (is_derive_scal _ _ k _ f5).
  - exact (is_derive_scal _ _ k _ f6).
  - exact (is_derive_scal _ _ k _ f7).
  - exact (is_derive_scal _ _ k _ f8).
  - exact (is_derive_scal _ _ k _ f9).
  - exact (is_derive_scal _ _ k _ f10).
Qed.
Lemma consistent_zero t p : consistent (fun _ _ _ => 0) t p.
Proof.
  assert (D : forall x d : R, d = 0 -> is_derive (fun _ : R => 0) x d) by (intros x d ->; exact (is_derive_const (K := R_AbsRing) (V := R_NormedModule) 0 x)).
  constructor; cbv beta; [ring|apply D; ring|apply D; ring|apply D; unfold Rdiv; ring|..]; apply D; ring.
Qed.
Lemma consistent_ext f g t p : (forall q t p, (q < 11)%nat -> f q t p = g q t p) -> consistent f t p -> consistent g t p.
Proof.
  intros E F. destruct F as [f1 f2 f3 f4 f5 f6 f7 f8 f9 f10]. constructor;
    [rewrite <- !E by lia; exact f1|..];
    (rewrite <- E by lia; eapply is_derive_ext; [|eassumption]; intros y; apply E; lia).
Qed.
Lemma consistent_sum n (f : nat -> nat -> R -> R -> R) t p : (forall i, (i < n)%nat -> consistent (f i) t p) -> consistent (fun q t p => sum n (fun i => f i q t p)) t p.
Proof.
  induction n as [|n IH]; intros H; cbn [sum]; [apply consistent_zero|]. apply (consistent_plus _ (f n)); auto.
Qed.
Lemma joules_scale q (f : nat -> R -> R -> R) t p : (q < 11)%nat -> inJoules (fun q t p => scale q (f q t p)) q t p = f q t p.
Proof. intros L. unfold inJoules, isVolume, scale. do 11 (destruct q as [|q]; [cbn; try reflexivity; field|]). lia. Qed.
(** the numbers at fixed grams, as functions of temperature and pressure *)
Definition reported (e : Entry) failure grams a mem (q : nat) (t p : R) : R := cell (snd (phaseQuery failure (Some e) t p grams (Some a) mem)) a q.
Definition reportedPerMole (e : Entry) failure comp a mem (q : nat) (t p : R) : R := cell (snd (molarQuery failure (Some e) t p comp (Some a) mem)) a q.
Lemma C178_soln s m t p : consistent (fun q t p => sMix s q t p (sR s m)) t p -> (forall i, (i < sNa s)%nat -> consistent (sCur s i) t p) ->
  consistent (fun q t p => total s t p m q) t p.
Proof.
  intros M C. unfold total. apply (consistent_plus (fun q t p => sMix s q t p (sR s m) * sum (sNa s) m)).
  - apply (consistent_ext (fun q t p => sum (sNa s) m * sMix s q t p (sR s m))); [intros; ring|]. now apply (consistent_scal _ (fun q t p => sMix s q t p (sR s m))).
  - apply (consistent_sum (sNa s) (fun i q t p => m i * sCur s i q t p)). intros i L. apply (consistent_scal (m i) (sCur s i)). auto.
Qed.
Lemma consistent_joules f t p : consistent f t p -> consistent (inJoules (fun q t p => scale q (f q t p))) t p.
Proof. apply consistent_ext. intros. symmetry. now apply joules_scale. Qed.
Lemma C178_general e s failure t p grams a mem : solnOf e = Some s ->
  consistent (fun q t p => sMix s q t p (sR s (amountsOf e t p grams))) t p -> (forall i, (i < sNa s)%nat -> consistent (sCur s i) t p) ->
  consistent (inJoules (reported e failure grams a mem)) t p.
Proof.
  intros S M C. assert (Q : consistent (fun q t p => total s t p (amountsOf e t p grams) q) t p).
  { destruct e; cbn [solnOf amountsOf] in *; [|discriminate|]; injection S as <-; now apply C178_soln. }
  apply consistent_joules in Q. revert Q. apply consistent_ext. intros q t' p' L. unfold reported, inJoules. rewrite cell_phase.
  destruct e; cbn [solnOf amountsOf] in *; [|discriminate|]; injection S as <-; cbv zeta; rewrite written_prop by assumption; reflexivity.
Qed.
Theorem C178_pure failure mw cur t p grams a mem : consistent cur t p -> consistent (inJoules (reported (Pure mw cur) failure grams a mem)) t p.
Proof.
  intros C. apply (consistent_scal (sum (nc tab) grams / mw)), consistent_joules in C. revert C. apply consistent_ext. intros q t' p' L.
  unfold reported, inJoules. rewrite cell_phase. rewrite written_prop by assumption. reflexivity.
Qed.
End Numbers.
