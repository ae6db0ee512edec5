(** C227-C230: the main window. *)
From Coq Require Import Reals ZArith Bool Ascii String List Lia Lra.
From Verif Require Import WinModel.
Import ListNotations.
Open Scope R_scope.

(** ---- C227, C230: calculations ---- *)
Definition runs (ds : list Deed) : Gui := fold_left perform ds idle.
(** a deed counts only where the window or the scheduler can do it *)
Definition happens (ds : list Deed) : Prop := forall pre d post, ds = pre ++ d :: post -> allowed d (runs pre) = true.
Definition isStop (d : Deed) : bool := match d with StopPress => true | _ => false end.
Lemma runs_snoc ds d : runs (ds ++ [d]) = perform (runs ds) d.
Proof. unfold runs. now rewrite fold_left_app. Qed.

(** there are never more than two, and while there are two the window waits *)
Theorem C227_two : forall ds, let g := runs ds in (running g <= 2)%nat /\ (running g = 2%nat -> forall d, allowed d g = true -> d = OldEnds \/ d = NewEnds).
Proof.
  intros ds. cbv zeta. destruct (runs ds) as [p l f n]. unfold running, live; cbn [future newer]. split.
  - destruct f as [[|]|], n as [[|]|]; lia.
  - destruct f as [[|]|], n as [[|]|]; intros H d A; try discriminate H. destruct d; cbn in A; try discriminate A; auto.
Qed.
(** C227 false of the code: stopping and starting again *)
Definition stopStart : list Deed := [Press; Frame; StopPress; Press; Frame].
Theorem C227_refuted : happens stopStart /\ running (runs stopStart) = 2%nat.
Proof.
  split; [|reflexivity]. intros pre d post E. unfold stopStart in E.
  destruct pre as [|a [|b [|c [|x [|y [|z pre]]]]]]; cbn in E; inversion E; subst; try reflexivity.
Qed.
(** without the stop button one calculation at a time, and nothing is replaced under it *)
Definition calm (g : Gui) : Prop := newer g = None /\ (future g = Some Running -> popup g = true /\ launch g = false) /\ (launch g = true -> popup g = true).
Lemma calm_step g d : calm g -> isStop d = false -> calm (perform g d).
Proof.
  destruct g as [p l f n]. intros (N & F & L) S. cbn [newer future popup launch] in *. subst n. unfold perform.
  destruct (allowed d (mkGui p l f None)) eqn:A; cbn [negb]; [|repeat split; auto; intros; now apply F].
  destruct d; try discriminate S; cbn [allowed newer future popup launch] in *.
  - (* Press *) apply negb_true_iff in A. subst p. assert (Nf : f <> Some Running) by (intros E; destruct (F E); discriminate).
    split; [reflexivity|]. split; cbn; [intros E; now elim Nf|reflexivity].
  - (* Frame *) subst p. destruct l; cbn [future].
    + destruct f as [[|]|].
      * destruct (F eq_refl). discriminate.
      * unfold poll; cbn. repeat split; auto.
      * unfold poll; cbn. repeat split; auto.
    + destruct f as [[|]|]; unfold poll; cbn; repeat split; auto; discriminate.
  - repeat split; auto; now apply F.
  - (* OldEnds *) cbn. repeat split; auto; discriminate.
  - discriminate A.
Qed.
Lemma calm_all ds : forallb (fun d => negb (isStop d)) ds = true -> calm (runs ds).
Proof.
  induction ds as [|d ds IH] using rev_ind; intros H; [repeat split; cbn; auto; discriminate|].
  rewrite forallb_app in H. apply andb_true_iff in H as [H1 H2]. cbn in H2. rewrite andb_true_r in H2. apply negb_true_iff in H2.
  rewrite runs_snoc. apply calm_step; auto.
Qed.
Theorem C227_partial : forall ds, forallb (fun d => negb (isStop d)) ds = true -> (running (runs ds) <= 1)%nat.
Proof. intros ds H. destruct (calm_all ds H) as (N & _). unfold running. rewrite N. destruct (future (runs ds)) as [[|]|]; cbn; lia. Qed.
Theorem C230_partial : forall ds, forallb (fun d => negb (isStop d)) ds = true -> allowed Replace (runs ds) = true -> running (runs ds) = 0%nat.
Proof.
  intros ds H A. destruct (calm_all ds H) as (N & F & _). unfold allowed in A. rewrite N in A. apply negb_true_iff in A. unfold running. rewrite N.
  destruct (future (runs ds)) as [[|]|]; try reflexivity. destruct (F eq_refl) as [P _]. congruence.
Qed.
(** with the stop button: both hold if each stopped calculation ends before the window is used again *)
Definition quiet (g : Gui) : Prop := newer g = None /\ (future g = Some Running -> launch g = false) /\ (launch g = true -> popup g = true).
Definition patient (ds : list Deed) : Prop := forall pre d post, ds = pre ++ d :: post -> (d = Press \/ d = Replace) -> running (runs pre) = 0%nat.
Lemma quiet_step g d : quiet g -> ((d = Press \/ d = Replace) -> running g = 0%nat) -> quiet (perform g d).
Proof.
  destruct g as [p l f n]. intros (N & F & L) S. cbn [newer future popup launch] in *. subst n. unfold perform.
  destruct (allowed d (mkGui p l f None)) eqn:A; cbn [negb]; [|repeat split; auto].
  destruct d; cbn [allowed newer future popup launch] in *.
  - (* Press *) specialize (S (or_introl eq_refl)). unfold running, live in S. cbn in S. split; [reflexivity|]. split; cbn; [intros E; rewrite E in S; discriminate|reflexivity].
  - (* Frame *) subst p. destruct l; cbn [future].
    + destruct f as [[|]|]; [specialize (F eq_refl); discriminate| |]; unfold poll; cbn; repeat split; auto.
    + destruct f as [[|]|]; unfold poll; cbn; repeat split; auto; discriminate.
  - (* Stop *) apply andb_true_iff in A as [A1 A2]. apply andb_true_iff in A1 as [A0 A1]. apply negb_true_iff in A1. subst l. repeat split; cbn; auto; discriminate.
  - repeat split; auto.
  - cbn. repeat split; auto; discriminate.
  - discriminate A.
Qed.
Theorem C227_patient_partial : forall ds, patient ds -> (running (runs ds) <= 1)%nat.
Proof.
  intros ds H. enough (Q : quiet (runs ds)). { destruct Q as (N & _). unfold running. rewrite N. destruct (future (runs ds)) as [[|]|]; cbn; lia. }
  induction ds as [|d ds IH] using rev_ind; [repeat split; cbn; auto; discriminate|]. rewrite runs_snoc. apply quiet_step.
  - apply IH. intros pre x post E. apply (H pre x (post ++ [d])). rewrite E. now rewrite <- app_assoc.
  - intros Hd. apply (H ds d []); auto.
Qed.
Definition waited : list Deed := [Press; Frame; StopPress; OldEnds; Press; Frame; OldEnds; Frame; Replace].
Example C227_case : happens waited /\ patient waited /\ running (runs (firstn 6 waited)) = 1%nat.
Proof.
  split; [|split; [|reflexivity]]; intros pre d post E; unfold waited in E;
    destruct pre as [|a1 [|a2 [|a3 [|a4 [|a5 [|a6 [|a7 [|a8 [|a9 [|a10 pre]]]]]]]]]]; cbn in E; inversion E; subst; try reflexivity; intros [Q|Q]; try discriminate Q; reflexivity.
Qed.
(** C230 false of the code: "Stop", then "Reset state" or a file, while the calculation still uses the state *)
Theorem C230_refuted : happens [Press; Frame; StopPress; Replace] /\ running (runs [Press; Frame; StopPress]) = 1%nat.
Proof.
  split; [|reflexivity]. intros pre d post E.
  destruct pre as [|a [|b [|c [|x [|y pre]]]]]; cbn in E; inversion E; subst; try reflexivity.
Qed.

(** ---- C228: mode and increments ---- *)
(** what the mode calls for *)
Definition wanted (k : Z) (t : Inc) : Inc :=
  match k with
  | 0%Z => mkInc (incT t) (incP t) 0 0 0          (* isothermal/isobaric: T and P *)
  | 1%Z => mkInc 0 (incP t) (incH t) 0 0          (* isenthalpic: P and H *)
  | 2%Z => mkInc 0 (incP t) 0 (incS t) 0          (* isentropic: P and S *)
  | _ => mkInc (incT t) 0 0 0 (incV t)            (* isochoric: T and V *)
  end.
Definition inForce (p : Panel) : Prop :=
  flagH p = Z.eqb (chosen p) 1 /\ flagS p = Z.eqb (chosen p) 2 /\ flagV p = Z.eqb (chosen p) 3 /\ stepInc p = wanted (chosen p) (typed p).
Definition fourModes (k : Z) : Prop := k = 0%Z \/ k = 1%Z \/ k = 2%Z \/ k = 3%Z.
Definition plays (es : list Touch) : Panel := fold_left touch es panel0.
Lemma plays_snoc es e : plays (es ++ [e]) = touch (plays es) e.
Proof. unfold plays. now rewrite fold_left_app. Qed.
Lemma draw_open p : opened p = true -> fourModes (chosen p) -> inForce (drawPanel p) /\ fourModes (chosen (drawPanel p)) /\ opened (drawPanel p) = true.
Proof.
  intros O M. unfold drawPanel. rewrite O. cbn [negb]. destruct p as [k t o h s v i]. cbn [chosen typed opened flagH flagS flagV stepInc] in *.
  split; [|split; [exact M|reflexivity]].
  destruct M as [E|[E|[E|E]]]; subst k; cbn; repeat split.
Qed.
Lemma draw_closed p : opened p = false -> drawPanel p = p.
Proof. intros O. unfold drawPanel. now rewrite O. Qed.
(** the mode is one of the four and, when the node is unfolded, everything is in force *)
Definition okPanel (p : Panel) : Prop := fourModes (chosen p) /\ (opened p = true -> inForce p).
Lemma draw_ok p : fourModes (chosen p) -> okPanel (drawPanel p).
Proof.
  intros M. destruct (opened p) eqn:O; [destruct (draw_open p O M) as (A & B & C); split; auto|]. rewrite draw_closed by exact O. split; [exact M|]. congruence.
Qed.
Lemma touch_ok p e : okPanel p -> okPanel (touch p e).
Proof.
  intros (M & F). destruct e as [|k|f x| | |h s v i]; cbn [touch].
  - now apply draw_ok.
  - destruct (opened p && (0 <=? k)%Z && (k <=? 3)%Z) eqn:C; [|now apply draw_ok]. apply draw_ok. cbn.
    apply andb_true_iff in C as [C C3]. apply andb_true_iff in C as [_ C2]. apply Z.leb_le in C2. apply Z.leb_le in C3. unfold fourModes. lia.
  - destruct (opened p && offered (chosen p) f); now apply draw_ok.
  - destruct (opened p) eqn:O; [|split; [exact M|congruence]]. destruct (draw_open p O M) as (A & B & C). destruct A as (A1 & A2 & A3 & _). split; [exact B|]. intros _.
    unfold inForce. cbn [chosen flagH flagS flagV typed stepInc]. repeat split; auto. destruct B as [E|[E|[E|E]]]; rewrite E; reflexivity.
  - apply draw_ok. left. reflexivity.
  - apply draw_ok. cbn. unfold fourModes. destruct v, s, h; lia.
Qed.
Theorem C228_partial : forall es, let p := plays es in opened p = true -> inForce p.
Proof.
  intros es. cbv zeta. enough (H : okPanel (plays es)) by apply H.
  induction es as [|e es IH] using rev_ind; [split; [now left|discriminate]|]. rewrite plays_snoc. now apply touch_ok.
Qed.
(** folded or not, as long as nothing is reset and files set one mode and its increments only *)
Definition plain (e : Touch) : Prop :=
  match e with
  | StartOver => False
  | FromFile h s v i => (h && s = false /\ h && v = false /\ s && v = false) /\ i = wanted (if v then 3 else if s then 2 else if h then 1 else 0) i
  | _ => True
  end.
Theorem C228_folded_partial : forall es, (forall e, In e es -> plain e) -> inForce (plays es).
Proof.
  intros es H. enough (G : fourModes (chosen (plays es)) /\ inForce (plays es)) by apply G. revert H.
  induction es as [|e es IH] using rev_ind; intros H; [split; [now left|repeat split]|].
  destruct (IH (fun x Hx => H x (in_or_app _ _ _ (or_introl Hx)))) as [M F]. specialize (H e ltac:(apply in_or_app; right; left; reflexivity)).
  rewrite plays_snoc. set (p := plays es) in *.
  assert (Go : fourModes (chosen (touch p e)) /\ (opened (touch p e) = true -> inForce (touch p e))) by (apply touch_ok; split; auto).
  destruct Go as [G1 G2]. split; [exact G1|]. destruct (opened (touch p e)) eqn:O; [now apply G2|]. clear G1 G2.
  assert (D : forall q, opened (drawPanel q) = opened q) by (intros q; unfold drawPanel; destruct (opened q) eqn:Oq; cbn; auto).
  destruct e as [|k|f x| | |h s v i]; cbn [touch plain] in *.
  - rewrite D in O. cbn in O. rewrite draw_closed by exact O. exact F.
  - destruct (opened p && (0 <=? k)%Z && (k <=? 3)%Z); rewrite D in O; cbn in O; [discriminate|]. now rewrite draw_closed.
  - destruct (opened p && offered (chosen p) f); rewrite D in O; cbn in O; [discriminate|]. now rewrite draw_closed.
  - destruct (opened p); [discriminate O|exact F].
  - contradiction.
  - rewrite D in O. cbn in O. rewrite draw_closed by exact O. destruct H as [(A & B & C) E].
    destruct h, s, v; try discriminate; repeat split; cbn; exact E.
Qed.
(** what is typed is what the next steps use *)
Definition incOf (f : Field) (i : Inc) : R := match f with FT => incT i | FP => incP i | FH => incH i | FS => incS i | FV => incV i end.
Definition bound (f : Field) : R := match f with FT => 2000 | FP => 10000 | FH => 2000000 | FS => 500 | FV => 50 end.
Theorem C228_typed : forall es f x, let p := plays es in let q := touch p (TypeIn f x) in
  opened p = true -> offered (chosen p) f = true -> - bound f <= x <= bound f ->
  incOf f (stepInc q) = x /\ incOf f (typed q) = x /\ forall g, g <> f -> incOf g (typed q) = incOf g (typed p).
Proof.
  intros es f x p q O Of B.
  assert (L : forall b, - b <= x <= b -> limit b x = x). { intros b Hb. unfold limit. rewrite Rmax_right by lra. apply Rmin_right. lra. }
  assert (P : okPanel p). { unfold p. clear. induction es as [|e es IH] using rev_ind; [split; [now left|discriminate]|]. rewrite plays_snoc. now apply touch_ok. }
  destruct P as [M _]. unfold q. cbn [touch]. rewrite O, Of. cbn [andb]. unfold drawPanel. cbn [opened negb chosen typed stepInc].
  destruct M as [E|[E|[E|E]]]; rewrite E in *; destruct f; cbn in Of; try discriminate Of; cbn in B |- *; rewrite (L _ B); (split; [reflexivity|]); (split; [reflexivity|]);
    intros g Hg; destruct g; try reflexivity; contradiction.
Qed.
(** C228 false of the code: fold the node, reset the state: isothermal is shown, and every step still changes the enthalpy *)
Definition leak : list Touch := [Fold; Choose 1; TypeIn FH (-100); Fold; StartOver].
Theorem C228_refuted : let p := plays leak in chosen p = 0%Z /\ flagH p = false /\ incT (stepInc p) = 0 /\ incH (stepInc p) = -100 /\ ~ inForce p.
Proof.
  assert (L : limit 2000000 (-100) = -100). { unfold limit. rewrite Rmax_right by lra. apply Rmin_right. lra. }
  cbv zeta. assert (E : stepInc (plays leak) = mkInc 0 0 (-100) 0 0).
  { unfold plays, leak. cbn. rewrite L. reflexivity. }
  split; [reflexivity|]. split; [reflexivity|]. rewrite E. split; [reflexivity|]. split; [reflexivity|].
  intros (_ & _ & _ & Q). rewrite E in Q. change (chosen (plays leak)) with 0%Z in Q. cbn in Q. injection Q as Q. lra.
Qed.
Example C228_case : inForce (plays [Fold; TypeIn FT (-5); TypeIn FP 20; Choose 1; TypeIn FH (-100); Fold]) /\
  stepInc (plays [Fold; TypeIn FT (-5); TypeIn FP 20; Choose 1; TypeIn FH (-100); Fold]) = mkInc 0 20 (-100) 0 0.
Proof.
  split; [apply C228_folded_partial; intros e He; cbn in He; destruct He as [<-|[<-|[<-|[<-|[<-|[<-|[]]]]]]]; exact I|].
  assert (L : limit 2000000 (-100) = -100). { unfold limit. rewrite Rmax_right by lra. apply Rmin_right. lra. }
  assert (L2 : limit 10000 20 = 20). { unfold limit. rewrite Rmax_right by lra. apply Rmin_right. lra. }
  unfold plays. cbn. rewrite L, L2. reflexivity.
Qed.

(** ---- C229: the title ---- *)
Definition noZero (s : list ascii) : Prop := existsb (Ascii.eqb Ascii.zero) s = false.
Lemma cstr_clean s : noZero s -> cstr s = s.
Proof.
  unfold noZero. induction s as [|c s IH]; [reflexivity|]. intros H. cbn [existsb] in H. apply orb_false_iff in H as [A B]. cbn.
  rewrite Ascii.eqb_sym in A. rewrite A. f_equal. now apply IH.
Qed.
Theorem C229_partial : forall s, (List.length s <= 31)%nat -> noZero s ->
  runTitle (loadTitle s) = s /\ buf (loadTitle s) = s /\
  (existsb illegal s = false -> forall w, runTitle (typeTitle s w) = s /\ buf (typeTitle s w) = s).
Proof.
  intros s L Z. unfold loadTitle, typeTitle, drawTitle. cbn [buf runTitle]. rewrite firstn_all2 by exact L. rewrite (cstr_clean s Z), firstn_all2 by exact L.
  split; [destruct (existsb illegal s); reflexivity|]. split; [destruct (existsb illegal s); reflexivity|]. intros E w. now rewrite E.
Qed.
(** a title with a character that may not stand in a file name does not replace the one in use *)
Theorem C229_illegal : forall s w, existsb illegal (firstn 31 (cstr s)) = true -> runTitle (typeTitle s w) = runTitle w.
Proof. intros s w H. unfold typeTitle, drawTitle. cbn [buf runTitle]. now rewrite H. Qed.
Theorem C229_in_use : forall s w, existsb illegal (runTitle w) = false -> existsb illegal (runTitle (typeTitle s w)) = false.
Proof. intros s w H. unfold typeTitle, drawTitle. cbn [buf runTitle]. destruct (existsb illegal (firstn 31 (cstr s))) eqn:E; [exact H|exact E]. Qed.
(** resetting gives "Title" back when the old title has five letters at least *)
Theorem C229_reset_partial : forall w, (5 <= List.length (buf w))%nat -> buf (resetTitle w) = list_ascii_of_string "Title" /\ runTitle (resetTitle w) = list_ascii_of_string "Title".
Proof.
  intros w L. unfold resetTitle. rewrite firstn_all2 by exact L. split; reflexivity.
Qed.
(** C229 false of the code: titles of more than 31 bytes are cut when a file is loaded, and a short title is reset to a part of "Title" *)
Theorem C229_refuted :
  (forall s, (31 < List.length s)%nat -> noZero s -> existsb illegal (firstn 31 s) = false -> runTitle (loadTitle s) = firstn 31 s /\ runTitle (loadTitle s) <> s) /\
  runTitle (resetTitle (mkTitles (list_ascii_of_string "Ab") (list_ascii_of_string "Ab"))) = list_ascii_of_string "Ti".
Proof.
  split; [|reflexivity]. intros s L Z E. assert (Zf : noZero (firstn 31 s)).
  { unfold noZero in *. rewrite <- (firstn_skipn 31 s), existsb_app in Z. now apply orb_false_iff in Z as [Z _]. }
  unfold loadTitle, drawTitle. cbn [buf runTitle]. rewrite (cstr_clean _ Zf), E. cbn [runTitle]. split; [reflexivity|].
  intros Q. apply (f_equal (@List.length ascii)) in Q. rewrite firstn_length in Q. lia.
Qed.
Example C229_case : noZero (list_ascii_of_string "Bishop Tuff") /\ existsb illegal (list_ascii_of_string "Bishop Tuff") = false /\
  existsb illegal (list_ascii_of_string "a/b") = true.
Proof. repeat split. Qed.
Print Assumptions C228_folded_partial.
Print Assumptions C227_patient_partial.
