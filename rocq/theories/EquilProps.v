(** Properties of the calculation driver (C22 and the stop request). *)
From Coq Require Import List ZArith Bool Lia.
From Verif Require Import EquilModel.
Import ListNotations.
Open Scope Z_scope.

(** * Specification: what a run looks like from outside. *)

(** One equilibration: solver calls that ask to be called again, then one
    that says it has ended, leaving status [st]. *)
Inductive Equilibration : list Event -> Z -> Prop :=
| EqEnd : forall i r st, Equilibration [Called i true r st] st
| EqMore : forall i r st0 l st, Equilibration l st ->
    Equilibration (Called i false r st0 :: l) st.

(** [j] successful equilibrations, each followed by one increment. *)
Inductive Rounds : nat -> list Event -> Prop :=
| Rounds0 : Rounds 0 []
| RoundsS : forall j p o, Rounds j p -> Equilibration o SILMIN_SUCCESS ->
    Rounds (S j) (p ++ o ++ [Incremented]).

(** A run in order of time, without the notes about saved results. *)
Definition isSaved (e : Event) : bool := match e with Saved _ => true | _ => false end.
Definition acts (tr : list Event) : list Event := rev (filter (fun e => negb (isSaved e)) tr).

(** Calls that left a result ready, before and after the first increment. *)
Fixpoint readyCount (l : list Event) : nat :=
  match l with
  | Called _ _ true _ :: l => S (readyCount l)
  | _ :: l => readyCount l
  | [] => O
  end.
Fixpoint beforeInc (l : list Event) : list Event :=
  match l with
  | [] => [] | Incremented :: _ => [] | e :: l => e :: beforeInc l
  end.
Fixpoint afterInc (l : list Event) : list Event :=
  match l with
  | [] => [] | Incremented :: l => l | _ :: l => afterInc l
  end.

(** How many results are to be saved: one per new step, and the very first
    result of all as well. [l0] is the number of results saved earlier. *)
Definition toSave (l0 : Z) (l : list Event) : nat :=
  ((if (l0 =? 0)%Z then Nat.min 1 (readyCount (beforeInc l)) else 0)
   + readyCount (afterInc l))%nat.

(** Indices [l0], [l0+1], ... newest first. *)
Fixpoint upFrom (l0 : Z) (k : nat) : list Z :=
  match k with O => [] | S k => (l0 + Z.of_nat k) :: upFrom l0 k end.

(** * The count as the code keeps it. *)
Definition inFirst (l : list Event) : bool :=
  forallb (fun e => match e with Incremented => false | _ => true end) l.

Lemma inFirst_before : forall l, inFirst l = true -> beforeInc l = l /\ afterInc l = [].
Proof.
  induction l as [|e l IH]; intros E; [auto|]. cbn in E.
  apply andb_true_iff in E. destruct E as [E1 E2]. destruct (IH E2) as [A B].
  destruct e; cbn; try discriminate; rewrite A, B; auto.
Qed.

Lemma before_app : forall l x, beforeInc (l ++ x) = if inFirst l then l ++ beforeInc x else beforeInc l.
Proof.
  induction l as [|e l IH]; intros x; [reflexivity|].
  destruct e; cbn; try reflexivity; rewrite IH; unfold inFirst; destruct (forallb _ l); reflexivity.
Qed.

Lemma after_app : forall l x, afterInc (l ++ x) = if inFirst l then afterInc x else afterInc l ++ x.
Proof.
  induction l as [|e l IH]; intros x; [reflexivity|].
  destruct e; cbn; try (rewrite IH; unfold inFirst; destruct (forallb _ l); reflexivity). reflexivity.
Qed.

Lemma readyCount_app : forall l x, readyCount (l ++ x) = (readyCount l + readyCount x)%nat.
Proof.
  induction l as [|e l IH]; intros x; [reflexivity|].
  destruct e as [i e [|] st| |]; cbn; rewrite IH; reflexivity.
Qed.

Lemma toSave_called : forall l0 l i e r st, 0 <= l0 ->
  toSave l0 (l ++ [Called i e r st]) =
  (toSave l0 l + (if (r && ((l0 + Z.of_nat (toSave l0 l) =? 0) || negb (inFirst l)))%Z then 1 else 0))%nat.
Proof.
  intros l0 l i e r st L0. unfold toSave. rewrite before_app, after_app.
  destruct (inFirst l) eqn:F.
  - destruct (inFirst_before l F) as [A B]. rewrite A, B. cbn [beforeInc afterInc readyCount].
    rewrite readyCount_app. cbn [negb]. rewrite orb_false_r.
    destruct (l0 =? 0) eqn:E0.
    + apply Z.eqb_eq in E0. subst l0.
      destruct (readyCount l) as [|q]; destruct r; cbn; try reflexivity; lia.
    + apply Z.eqb_neq in E0. destruct r; cbn; try reflexivity.
      destruct (l0 + 0 =? 0) eqn:E1; [apply Z.eqb_eq in E1; lia|]. reflexivity.
  - rewrite readyCount_app, orb_true_r, andb_true_r. destruct r; cbn; lia.
Qed.

Lemma toSave_inc : forall l0 l, toSave l0 (l ++ [Incremented]) = toSave l0 l.
Proof.
  intros l0 l. unfold toSave. rewrite before_app, after_app.
  destruct (inFirst l) eqn:F.
  - destruct (inFirst_before l F) as [A B]. rewrite A, B. cbn.
    rewrite app_nil_r. reflexivity.
  - rewrite readyCount_app. cbn. lia.
Qed.

Lemma eq_inFirst : forall o st, Equilibration o st -> inFirst o = true.
Proof. intros o st E. induction E; cbn; auto. Qed.

Inductive Open : list Event -> Prop :=
| Open0 : Open []
| OpenS : forall o i r st, Open o -> Open (o ++ [Called i false r st]).

Lemma open_inFirst : forall o, Open o -> inFirst o = true.
Proof.
  intros o E. induction E; [reflexivity|]. unfold inFirst in *. rewrite forallb_app.
  rewrite IHE. reflexivity.
Qed.

Lemma eq_open_app : forall o, Open o -> forall l st, Equilibration l st -> Equilibration (o ++ l) st.
Proof.
  intros o E. induction E; intros l st' Q; [exact Q|].
  rewrite <- app_assoc. apply IHE. constructor. exact Q.
Qed.

Lemma rounds_inFirst : forall j p o, Rounds j p -> inFirst o = true ->
  inFirst (p ++ o) = (Nat.eqb j 0).
Proof.
  intros j p o E F. destruct E; [exact F|].
  unfold inFirst. rewrite !forallb_app. cbn.
  rewrite andb_false_r, andb_false_r. reflexivity.
Qed.

Section Runs.
Variable St : Type.
Variable call : Z -> St -> bool * St.
Variable ready : St -> bool.
Variable status : St -> Z.
Variable setStatus : Z -> St -> St.
Variable incr : St -> St.
Notation Mach := (Mach St).
Notation step := (step St call ready status setStatus incr).
Notation iterate := (iterate St call ready status setStatus incr).

Section Inv.
Variable m0 : Mach.
Hypothesis start : pc St m0 = PInit.
Hypothesis trace0 : trace St m0 = [].
Let n1 := calcSteps St m0.
Hypothesis pos : 0 < n1.
Let l0 := Z.max 0 (lastIndex St m0).

(** Bookkeeping that holds between a call and the saving. *)
Definition books (m : Mach) (saved : nat) : Prop :=
  calcSteps St m = n1 /\ lastIndex St m = l0 + Z.of_nat saved /\
  map snd (steps St m) = upFrom l0 saved ++ map snd (steps St m0).

Definition cur (m : Mach) : list Event := acts (trace St m).
Arguments cur m : simpl never.

Definition tailOk (m : Mach) (e : bool) (o : list Event) : Prop :=
  if e then Equilibration o (status (sol St m)) else Open o.

Definition pending (m : Mach) : Prop :=
  exists c i e st, cur m = c ++ [Called i e (ready (sol St m)) st] /\
    books m (toSave l0 c) /\ inFirst (cur m) = inFirst c.

Definition Inv (m : Mach) : Prop :=
  match pc St m with
  | PInit => m = m0
  | PFor => books m (toSave l0 (cur m)) /\ failure St m = failure St m0 /\
      ((exists j, Rounds j (cur m) /\ remaining St m = n1 - Z.of_nat j /\ 0 < remaining St m)
       \/ (remaining St m = 0 /\ exists p o, cur m = p ++ o /\ Rounds (Z.to_nat (n1 - 1)) p /\
             Equilibration o SILMIN_SUCCESS))
  | PZero => books m (toSave l0 (cur m)) /\ failure St m = failure St m0 /\
      exists j, Rounds j (cur m) /\ remaining St m = n1 - Z.of_nat j /\ 0 < remaining St m
  | PWhile => books m (toSave l0 (cur m)) /\ failure St m = failure St m0 /\
      exists j p o, cur m = p ++ o /\ Rounds j p /\ remaining St m = n1 - Z.of_nat j /\
        0 < remaining St m /\ tailOk m (silminEnd St m) o
  | PCall => books m (toSave l0 (cur m)) /\ failure St m = failure St m0 /\
      exists j p o, cur m = p ++ o /\ Rounds j p /\ remaining St m = n1 - Z.of_nat j /\
        0 < remaining St m /\ Open o
  | PRet e => pending m /\ failure St m = failure St m0 /\
      exists j p o, cur m = p ++ o /\ Rounds j p /\ remaining St m = n1 - Z.of_nat j /\
        0 < remaining St m /\ tailOk m e o
  | PSave => pending m /\ failure St m = failure St m0 /\
      exists j p o, cur m = p ++ o /\ Rounds j p /\ remaining St m = n1 - Z.of_nat j /\
        0 < remaining St m /\ tailOk m (silminEnd St m) o
  | PRem => books m (toSave l0 (cur m)) /\ failure St m = failure St m0 /\
      exists j p o, cur m = p ++ o /\ Rounds j p /\ remaining St m = n1 - Z.of_nat j /\
        0 < remaining St m /\ tailOk m (silminEnd St m) o
  | PStatus => books m (toSave l0 (cur m)) /\ failure St m = failure St m0 /\
      exists j p o, cur m = p ++ o /\ Rounds j p /\ remaining St m = n1 - Z.of_nat j /\
        0 < remaining St m /\ Equilibration o (status (sol St m))
  | PInc => books m (toSave l0 (cur m)) /\ failure St m = failure St m0 /\
      exists j p o, cur m = p ++ o /\ Rounds j p /\ remaining St m = n1 - Z.of_nat j /\
        0 < remaining St m /\ Equilibration o SILMIN_SUCCESS
  | PIncDo => books m (toSave l0 (cur m)) /\ failure St m = failure St m0 /\
      exists j p o, cur m = p ++ o /\ Rounds j p /\ remaining St m = n1 - Z.of_nat j /\
        1 < remaining St m /\ Equilibration o SILMIN_SUCCESS
  | PDec => books m (toSave l0 (cur m)) /\ failure St m = failure St m0 /\
      ((exists j, Rounds (S j) (cur m) /\ remaining St m = n1 - Z.of_nat j /\ 1 < remaining St m)
       \/ (remaining St m = 1 /\ exists p o, cur m = p ++ o /\ Rounds (Z.to_nat (n1 - 1)) p /\
             Equilibration o SILMIN_SUCCESS))
  | PDecW v => books m (toSave l0 (cur m)) /\ failure St m = failure St m0 /\
      ((exists j, Rounds (S j) (cur m) /\ v = n1 - Z.of_nat j /\ 1 < v)
       \/ (v = 1 /\ exists p o, cur m = p ++ o /\ Rounds (Z.to_nat (n1 - 1)) p /\
             Equilibration o SILMIN_SUCCESS))
  | PDone true => books m (toSave l0 (cur m)) /\ failure St m = failure St m0 /\
      exists p o, cur m = p ++ o /\ Rounds (Z.to_nat (n1 - 1)) p /\ Equilibration o SILMIN_SUCCESS
  | PDone false => books m (toSave l0 (cur m)) /\ failure St m = true /\
      exists j p o st, cur m = p ++ o /\ Rounds j p /\ Z.of_nat j < n1 /\
        Equilibration o st /\ st <> SILMIN_SUCCESS /\ st = status (sol St m)
  end.

Lemma inv_step : forall m, Inv m -> Inv (step m).
Proof.
  intros m I. unfold Inv in I. unfold EquilModel.step. destruct (pc St m) eqn:PCE.
  - (* PInit *) subst m. cbn [sol lastIndex setSol].
    destruct (lastIndex St m0 <? 0) eqn:L; unfold Inv;
      match goal with |- context [cur ?x] =>
        replace (cur x) with (@nil Event) by (unfold cur, acts; cbn; rewrite trace0; reflexivity) end;
      unfold books; cbn;
      (split; [|split; [reflexivity|left; exists 0%nat; split; [constructor|split; [|exact pos]]]]).
    + apply Z.ltb_lt in L. split; [reflexivity|]. split; [unfold l0, toSave; cbn; destruct (Z.max 0 (lastIndex St m0) =? 0); cbn; lia|].
      unfold toSave; cbn. destruct (l0 =? 0); reflexivity.
    + fold n1. lia.
    + apply Z.ltb_ge in L. split; [reflexivity|]. split; [unfold l0, toSave; cbn; destruct (Z.max 0 (lastIndex St m0) =? 0); cbn; lia|].
      unfold toSave; cbn. destruct (l0 =? 0); reflexivity.
    + fold n1. lia.
  - (* PFor *) destruct I as (B & F & D).
    destruct (0 <? remaining St m) eqn:L.
    + apply Z.ltb_lt in L. unfold Inv. cbn. split; [exact B|]. split; [exact F|].
      destruct D as [D|[D _]]; [exact D|lia].
    + apply Z.ltb_ge in L. unfold Inv. cbn. split; [exact B|]. split; [exact F|].
      destruct D as [(j & R & E & P)|[_ D]]; [lia|exact D].
  - (* PZero *) destruct I as (B & F & j & R & E & P). unfold Inv. cbn.
    split; [exact B|]. split; [exact F|]. exists j, (cur m), []. rewrite app_nil_r.
    repeat split; auto. constructor.
  - (* PWhile *) destruct I as (B & F & j & p & o & E & R & Q & P & T).
    destruct (silminEnd St m) eqn:SE; unfold Inv; cbn; (split; [exact B|]; split; [exact F|]; exists j, p, o; auto).
  - (* PCall *) destruct I as (B & F & j & p & o & E & R & Q & P & T).
    destruct (call (calcIndex St m) (sol St m)) as [e s] eqn:CE. unfold Inv. cbn.
    assert (C : forall x, trace St x = Called (calcIndex St m) e (ready s) (status s) :: trace St m ->
                cur x = cur m ++ [Called (calcIndex St m) e (ready s) (status s)]).
    { intros x Ex. unfold cur, acts. rewrite Ex. reflexivity. }
    split; [|split; [exact F|]].
    + unfold pending. rewrite C by reflexivity. cbn [sol atPc note setSol].
      exists (cur m), (calcIndex St m), e, (status s). split; [reflexivity|].
      split; [exact B|]. unfold inFirst. rewrite forallb_app. cbn. rewrite andb_true_r. reflexivity.
    + exists j, p, (o ++ [Called (calcIndex St m) e (ready s) (status s)]).
      rewrite C by reflexivity. rewrite E, app_assoc. repeat split; auto.
      destruct e; cbn; [apply eq_open_app; [exact T|constructor]|constructor; exact T].
  - (* PRet *) destruct I as (B & F & j & p & o & E & R & Q & P & T). unfold Inv. cbn.
    split; [exact B|]. split; [exact F|]. exists j, p, o. repeat split; auto.
  - (* PSave *) destruct I as ((c & i & e & st & C & (B1 & B2 & B3) & FI) & F & j & p & o & E & R & Q & P & T).
    assert (IF : inFirst o = true).
    { destruct (silminEnd St m); cbn in T; [eapply eq_inFirst; exact T|apply open_inFirst; exact T]. }
    pose proof (rounds_inFirst j p o R IF) as RI. rewrite <- E, FI in RI.
    assert (TS : toSave l0 (cur m) =
      (toSave l0 c + (if (ready (sol St m) && ((lastIndex St m =? 0) || negb (remaining St m =? calcSteps St m)))%Z then 1 else 0))%nat).
    { rewrite C. rewrite toSave_called by (unfold l0; lia). f_equal. rewrite B2.
      replace (remaining St m =? calcSteps St m) with (inFirst c); [reflexivity|].
      rewrite RI, B1, Q. destruct (Nat.eqb_spec j 0) as [J|J].
      - subst j. symmetry. apply Z.eqb_eq. lia.
      - symmetry. apply Z.eqb_neq. lia. }
    destruct (ready (sol St m) && _) eqn:RD; unfold Inv; cbn.
    + split; [|split; [exact F|exists j, p, o; auto]].
      unfold books. cbn.
      replace (cur _) with (cur m) by (unfold cur, acts; cbn; reflexivity).
      rewrite TS, Nat.add_1_r. cbn. rewrite B2, B3. split; [exact B1|]. split; [lia|]. reflexivity.
    + split; [|split; [exact F|exists j, p, o; auto]].
      unfold books. cbn. change (cur (atPc St PRem m)) with (cur m). rewrite TS, Nat.add_0_r. auto.
  - (* PRem *) destruct I as (B & F & j & p & o & E & R & Q & P & T).
    destruct (remaining St m =? 0) eqn:Z0; [apply Z.eqb_eq in Z0; lia|].
    unfold Inv; cbn. split; [exact B|]. split; [exact F|]. exists j, p, o. auto.
  - (* PStatus *) destruct I as (B & F & j & p & o & E & R & Q & P & T).
    destruct (status (sol St m) =? SILMIN_SUCCESS) eqn:SS; unfold Inv; cbn.
    + apply Z.eqb_eq in SS. split; [exact B|]. split; [exact F|]. exists j, p, o. rewrite <- SS. auto.
    + apply Z.eqb_neq in SS. split; [exact B|]. split; [reflexivity|].
      exists j, p, o, (status (sol St m)). repeat split; auto. lia.
  - (* PInc *) destruct I as (B & F & j & p & o & E & R & Q & P & T).
    destruct (1 <? remaining St m) eqn:L; unfold Inv; cbn; (split; [exact B|]; split; [exact F|]).
    + apply Z.ltb_lt in L. exists j, p, o. auto.
    + apply Z.ltb_ge in L. right. split; [lia|]. exists p, o. split; [exact E|]. split; [|exact T].
      replace (Z.to_nat (n1 - 1)) with j by lia. exact R.
  - (* PIncDo *) destruct I as (B & F & j & p & o & E & R & Q & P & T). unfold Inv; cbn.
    assert (C : forall x, trace St x = Incremented :: trace St m -> cur x = cur m ++ [Incremented])
      by (intros x Ex; unfold cur, acts; rewrite Ex; reflexivity).
    rewrite C by reflexivity. split; [|split; [exact F|]].
    + rewrite toSave_inc. exact B.
    + left. exists j. split; [|auto]. rewrite E, <- app_assoc. constructor; auto.
  - (* PDec *) destruct I as (B & F & D). unfold Inv; cbn. split; [exact B|]. split; [exact F|]. exact D.
  - (* PDecW *) destruct I as (B & F & D). unfold Inv; cbn. split; [exact B|]. split; [exact F|].
    destruct D as [(j & R & E & P)|[E D]].
    + left. exists (S j). split; [exact R|]. lia.
    + right. split; [lia|exact D].
  - (* PDone *) unfold Inv. rewrite PCE. exact I.
Qed.

Lemma inv_iterate : forall k m, Inv m -> Inv (iterate k m).
Proof. induction k as [|k IH]; intros m I; [exact I|]. cbn [EquilModel.iterate]. apply IH, inv_step, I. Qed.

Lemma inv_start : Inv m0.
Proof. unfold Inv. rewrite start. reflexivity. Qed.

End Inv.

(** * C22: a run of [n] requested steps that nobody stops. *)
Theorem C22_run : forall m0 n k r,
  0 <= n -> pc St m0 = PInit -> trace St m0 = [] -> calcSteps St m0 = n + 1 ->
  let m := iterate k m0 in
  pc St m = PDone r ->
  if r then
    failure St m = failure St m0 /\
    exists p o, acts (trace St m) = p ++ o /\ Rounds (Z.to_nat n) p /\ Equilibration o SILMIN_SUCCESS
  else
    failure St m = true /\
    exists j p o st, acts (trace St m) = p ++ o /\ Rounds j p /\ (Z.of_nat j <= n) /\
      Equilibration o st /\ st <> SILMIN_SUCCESS /\ status (sol St m) = st.
Proof.
  intros m0 n k r N P0 T0 C0 m D.
  assert (POS : 0 < calcSteps St m0) by lia.
  pose proof (inv_iterate m0 T0 POS k m0 (inv_start m0 P0)) as I. fold m in I.
  unfold Inv in I. rewrite D in I. unfold cur in I.
  replace (Z.to_nat (calcSteps St m0 - 1)) with (Z.to_nat n) in I by lia.
  destruct r.
  - destruct I as (_ & F & X). split; assumption.
  - destruct I as (_ & F & j & p & o & st & A & R & L & Q & S1 & S2).
    split; [exact F|]. exists j, p, o, st. repeat split; auto. lia.
Qed.

(** The results saved by such a run: the indices continue the earlier ones,
    and there is one per result made ready after the first increment, plus
    the very first one of all. *)
Theorem C22_saved : forall m0 n k r,
  0 <= n -> pc St m0 = PInit -> trace St m0 = [] -> calcSteps St m0 = n + 1 ->
  let m := iterate k m0 in
  pc St m = PDone r ->
  let l0 := Z.max 0 (lastIndex St m0) in
  let s := toSave l0 (acts (trace St m)) in
  lastIndex St m = l0 + Z.of_nat s /\
  map snd (steps St m) = upFrom l0 s ++ map snd (steps St m0).
Proof.
  intros m0 n k r N P0 T0 C0 m D.
  assert (POS : 0 < calcSteps St m0) by lia.
  pose proof (inv_iterate m0 T0 POS k m0 (inv_start m0 P0)) as I. fold m in I.
  unfold Inv in I. rewrite D in I. unfold cur, books in I.
  destruct r; destruct I as ((_ & A & B) & _); split; assumption.
Qed.

(** If every successful equilibration makes exactly one result ready (which
    the solver does, see SilminProps.v), a run of [n] steps that succeeds
    saves [n] results, or [n+1] when nothing had been saved before. *)
Definition oneReady (l : list Event) : Prop :=
  forall p o q, l = p ++ o ++ q ->
    (p = [] \/ exists p', p = p' ++ [Incremented]) ->
    Equilibration o SILMIN_SUCCESS -> readyCount o = 1%nat.

Lemma rounds_ends : forall j p, Rounds j p -> p = [] \/ exists p', p = p' ++ [Incremented].
Proof.
  intros j p H. destruct H; [left; reflexivity|right]. exists (p ++ o). rewrite <- app_assoc. reflexivity.
Qed.

Lemma rounds_split : forall j p, Rounds j p -> forall q, oneReady (p ++ q) ->
  readyCount p = j /\ (j <> 0%nat -> readyCount (beforeInc p) = 1%nat /\ inFirst p = false /\
                       (readyCount (beforeInc p) + readyCount (afterInc p))%nat = j).
Proof.
  intros j p Hr. induction Hr as [|j p o Hr IH E]; intros q H.
  - split; [reflexivity|]. intros; congruence.
  - assert (O1 : readyCount o = 1%nat).
    { apply (H p o ([Incremented] ++ q)); [rewrite <- !app_assoc; reflexivity|eapply rounds_ends; exact Hr|exact E]. }
    destruct (IH (o ++ [Incremented] ++ q)) as [C D].
    { intros x y z Exyz X1 X2. apply (H x y z); [|exact X1|exact X2]. rewrite <- Exyz, <- !app_assoc. reflexivity. }
    rewrite !readyCount_app. cbn [readyCount]. split; [lia|]. intros _.
    rewrite !before_app, !after_app. rewrite (eq_inFirst _ _ E).
    destruct (inFirst_before o (eq_inFirst _ _ E)) as [A B].
    destruct j as [|j].
    + inversion Hr; subst. cbn [app inFirst forallb beforeInc].
      rewrite app_nil_r. rewrite O1. repeat split.
      unfold inFirst. rewrite forallb_app. cbn. apply andb_false_r.
    + destruct D as (D1 & D2 & D3); [congruence|]. rewrite D2. split; [exact D1|]. split.
      * unfold inFirst in *. rewrite forallb_app, D2. reflexivity.
      * rewrite !readyCount_app. cbn. lia.
Qed.

Theorem C22_one_result_per_step : forall m0 n k,
  0 <= n -> pc St m0 = PInit -> trace St m0 = [] -> calcSteps St m0 = n + 1 ->
  let m := iterate k m0 in
  pc St m = PDone true -> oneReady (acts (trace St m)) ->
  Z.of_nat (length (steps St m)) =
    Z.of_nat (length (steps St m0)) + n + (if lastIndex St m0 <=? 0 then 1 else 0).
Proof.
  intros m0 n k N P0 T0 C0 m D H.
  destruct (C22_saved m0 n k true N P0 T0 C0 D) as [_ A]. fold m in A.
  pose proof (C22_run m0 n k true N P0 T0 C0 D) as R. cbn [fst] in R. fold m in R.
  destruct R as (_ & p & o & E & Hr & Q).
  set (l0 := Z.max 0 (lastIndex St m0)) in *.
  assert (S : toSave l0 (acts (trace St m)) = (Z.to_nat n + (if (lastIndex St m0 <=? 0)%Z then 1 else 0))%nat).
  { unfold toSave. rewrite E in H |- *.
    assert (O1 : readyCount o = 1%nat) by (apply (H p o []); [rewrite app_nil_r; reflexivity|eapply rounds_ends; exact Hr|exact Q]).
    destruct (rounds_split _ _ Hr o H) as [C Dd].
    assert (L : (l0 =? 0) = (lastIndex St m0 <=? 0)).
    { unfold l0. destruct (Z.leb_spec (lastIndex St m0) 0); [apply Z.eqb_eq|apply Z.eqb_neq]; lia. }
    rewrite L. rewrite before_app, after_app.
    destruct (inFirst_before o (eq_inFirst _ _ Q)) as [Bo Ao].
    destruct (Z.to_nat n) as [|j].
    - inversion Hr; subst. cbn [app inFirst forallb readyCount]. rewrite Bo, Ao, O1.
      destruct (lastIndex St m0 <=? 0); reflexivity.
    - destruct Dd as (D1 & D2 & D3); [congruence|]. rewrite D2, readyCount_app, D1, O1.
      destruct (lastIndex St m0 <=? 0); cbn; lia. }
  assert (LL : length (steps St m) = (toSave l0 (acts (trace St m)) + length (steps St m0))%nat).
  { rewrite <- (map_length snd (steps St m)), A, app_length, map_length. f_equal.
    generalize (toSave l0 (acts (trace St m))); intros q; induction q as [|q IQ]; cbn; [reflexivity|rewrite IQ; reflexivity]. }
  rewrite LL, S. destruct (lastIndex St m0 <=? 0); lia.
Qed.

(** The run comes to an end if the solver does. *)
Definition nextIndex (i : Z) : Z := if i + 1 =? INT_MAX then 1 else i + 1.
Inductive Ends : Z -> St -> Prop :=
| EndsNow : forall i s, fst (call i s) = true -> Ends i s
| EndsLater : forall i s, fst (call i s) = false -> Ends (nextIndex i) (snd (call i s)) -> Ends i s.

Lemma iterate_app : forall a b m, iterate (a + b) m = iterate b (iterate a m).
Proof. induction a as [|a IH]; intros b m; [reflexivity|]. cbn [Nat.add EquilModel.iterate]. apply IH. Qed.

Definition finishes (m : Mach) : Prop := exists k r, pc St (iterate k m) = PDone r.
Lemma finishes_step : forall m, finishes (step m) -> finishes m.
Proof. intros m (k & r & E). exists (S k), r. exact E. Qed.

Hypothesis ends : forall i s, Ends i s.

Lemma finishes_status : forall m, pc St m = PStatus ->
  (forall m', pc St m' = PFor -> 0 < remaining St m -> remaining St m' = remaining St m - 1 -> finishes m') ->
  0 < remaining St m -> finishes m.
Proof.
  intros m P H L. apply finishes_step. unfold EquilModel.step. rewrite P.
  destruct (status (sol St m) =? SILMIN_SUCCESS).
  - apply finishes_step. unfold EquilModel.step. cbn.
    destruct (1 <? remaining St m).
    + apply finishes_step, finishes_step, finishes_step. unfold EquilModel.step. cbn.
      apply H; cbn; auto.
    + apply finishes_step, finishes_step. unfold EquilModel.step. cbn. apply H; cbn; auto.
  - exists 0%nat, false. reflexivity.
Qed.

Lemma finishes_call : forall i s, Ends i s -> forall m, pc St m = PCall -> calcIndex St m = i -> sol St m = s ->
  0 < remaining St m ->
  (forall m', pc St m' = PFor -> remaining St m' = remaining St m - 1 -> finishes m') -> finishes m.
Proof.
  intros i s E. induction E as [i s E|i s E _ IH]; intros m P CI SO L H.
  - apply finishes_step. unfold EquilModel.step. rewrite P, CI, SO.
    destruct (call i s) as [e s'] eqn:CE. cbn in E. subst e.
    apply finishes_step. unfold EquilModel.step at 1. cbn.
    apply finishes_step. unfold EquilModel.step at 1. cbn [pc atPc setCalcIndex].
    destruct (ready _ && _); apply finishes_step; unfold EquilModel.step at 1; cbn;
      (destruct (remaining St m =? 0) eqn:Z0; [apply Z.eqb_eq in Z0; lia|]);
      apply finishes_step; unfold EquilModel.step at 1; cbn;
      (apply finishes_status; [reflexivity| |exact L]); cbn; intros; apply H; auto.
  - apply finishes_step. unfold EquilModel.step. rewrite P, CI, SO.
    destruct (call i s) as [e s'] eqn:CE. cbn in E. subst e. cbn [snd] in IH.
    apply finishes_step. unfold EquilModel.step at 1. cbn.
    apply finishes_step. unfold EquilModel.step at 1. cbn [pc atPc setCalcIndex].
    destruct (ready _ && _); apply finishes_step; unfold EquilModel.step at 1; cbn;
      (destruct (remaining St m =? 0) eqn:Z0; [apply Z.eqb_eq in Z0; lia|]);
      apply finishes_step; unfold EquilModel.step at 1; cbn;
      (apply IH; [reflexivity|cbn; rewrite CI; reflexivity|reflexivity|exact L|cbn; exact H]).
Qed.

Theorem C22_run_ends : forall m, pc St m = PInit -> finishes m.
Proof.
  assert (F : forall d m, pc St m = PFor -> remaining St m <= Z.of_nat d -> finishes m).
  { induction d as [|d IH]; intros m P L.
    - exists 1%nat, true. cbn. unfold EquilModel.step. rewrite P.
      destruct (0 <? remaining St m) eqn:E; [apply Z.ltb_lt in E; lia|]. reflexivity.
    - destruct (Z.ltb_spec 0 (remaining St m)) as [R|R].
      + apply finishes_step. unfold EquilModel.step. rewrite P.
        destruct (0 <? remaining St m) eqn:E; [|apply Z.ltb_ge in E; lia].
        apply finishes_step. unfold EquilModel.step. cbn.
        apply finishes_step. unfold EquilModel.step. cbn.
        apply (finishes_call (calcIndex St m) (sol St m) (ends _ _)); cbn; auto.
        intros m' P' E'. apply IH; [exact P'|lia].
      + apply IH; [exact P|lia]. }
  intros m P. apply finishes_step. unfold EquilModel.step. rewrite P. cbv zeta.
  destruct (lastIndex _ _ <? 0); apply (F (Z.to_nat (calcSteps St m))); cbn; auto; lia.
Qed.

End Runs.

(** * The stop request. *)
Section Stop.
Variable St : Type.
Variable call : Z -> St -> bool * St.
Variable ready : St -> bool.
Variable status : St -> Z.
Variable setStatus : Z -> St -> St.
Variable incr : St -> St.
Notation Mach := (Mach St).
Notation step := (step St call ready status setStatus incr).
Notation iterate := (iterate St call ready status setStatus incr).

Fixpoint callsIn (l : list Event) : nat :=
  match l with Called _ _ _ _ :: l => S (callsIn l) | _ :: l => callsIn l | [] => O end.
Fixpoint incsIn (l : list Event) : nat :=
  match l with Incremented :: l => S (incsIn l) | _ :: l => incsIn l | [] => O end.

Definition settles (k : nat) (m : Mach) (c i : nat) : Prop :=
  (exists r, pc St (iterate k m) = PDone r) /\
  (callsIn (trace St (iterate k m)) <= callsIn (trace St m) + c)%nat /\
  (incsIn (trace St (iterate k m)) <= incsIn (trace St m) + i)%nat.

Lemma settles_step : forall k m c i c0 i0, settles k (step m) c i ->
  callsIn (trace St (step m)) = (callsIn (trace St m) + c0)%nat ->
  incsIn (trace St (step m)) = (incsIn (trace St m) + i0)%nat ->
  settles (S k) m (c + c0) (i + i0).
Proof.
  intros k m c i c0 i0 (R & A & B) C D. unfold settles. cbn [EquilModel.iterate].
  split; [exact R|]. lia.
Qed.

Lemma settles_more : forall k m c i c' i' k', settles k m c i ->
  (k <= k')%nat -> (c <= c')%nat -> (i <= i')%nat -> settles k' m c' i'.
Proof.
  assert (D : forall k x r, pc St x = PDone r -> iterate k x = x).
  { induction k as [|k IH]; intros x r E; [reflexivity|]. cbn [EquilModel.iterate].
    replace (step x) with x; [eapply IH; exact E|]. unfold EquilModel.step. rewrite E. reflexivity. }
  intros k m c i c' i' k' ((r & R) & A & B) K C I.
  replace k' with (k + (k' - k))%nat by lia. unfold settles. rewrite iterate_app.
  rewrite (D _ _ r R). split; [exists r; exact R|]. lia.
Qed.



Lemma sFor : forall m, pc St m = PFor -> remaining St m <= 0 -> settles 1 m 0 0.
Proof.
  intros m P L. unfold settles. cbn [EquilModel.iterate]. unfold EquilModel.step. rewrite P.
  destruct (0 <? remaining St m) eqn:E; [apply Z.ltb_lt in E; lia|].
  cbn. split; [exists true; reflexivity|lia].
Qed.
Lemma sDecW : forall m v, pc St m = PDecW v -> v <= 1 -> settles 2 m 0 0.
Proof.
  intros m v P L. apply (settles_step 1 m 0 0 0 0).
  - apply sFor; unfold EquilModel.step; rewrite P; cbn; [reflexivity|lia].
  - unfold EquilModel.step; rewrite P; cbn; lia.
  - unfold EquilModel.step; rewrite P; cbn; lia.
Qed.
Lemma sDec : forall m, pc St m = PDec -> remaining St m <= 1 -> settles 3 m 0 0.
Proof.
  intros m P L. apply (settles_step 2 m 0 0 0 0).
  - apply sDecW with (remaining St m); [unfold EquilModel.step; rewrite P; reflexivity|exact L].
  - unfold EquilModel.step; rewrite P; cbn; lia.
  - unfold EquilModel.step; rewrite P; cbn; lia.
Qed.
Lemma sInc : forall m, pc St m = PInc -> remaining St m <= 1 -> settles 4 m 0 0.
Proof.
  intros m P L.
  assert (E : step m = atPc St PDec m).
  { unfold EquilModel.step. rewrite P. destruct (1 <? remaining St m) eqn:E; [apply Z.ltb_lt in E; lia|reflexivity]. }
  apply (settles_step 3 m 0 0 0 0); rewrite E; [apply sDec; [reflexivity|exact L]|cbn; lia|cbn; lia].
Qed.
Lemma sIncDo : forall m, pc St m = PIncDo -> remaining St m <= 1 -> settles 4 m 0 1.
Proof.
  intros m P L. apply (settles_step 3 m 0 0 0 1).
  - apply sDec; unfold EquilModel.step; rewrite P; [reflexivity|exact L].
  - unfold EquilModel.step; rewrite P; cbn; lia.
  - unfold EquilModel.step; rewrite P; cbn; lia.
Qed.
Lemma sStatus : forall m, pc St m = PStatus -> remaining St m <= 1 -> settles 5 m 0 0.
Proof.
  intros m P L. destruct (status (sol St m) =? SILMIN_SUCCESS) eqn:SS.
  - assert (E : step m = atPc St PInc m) by (unfold EquilModel.step; rewrite P, SS; reflexivity).
    apply (settles_step 4 m 0 0 0 0); rewrite E; [apply sInc; [reflexivity|exact L]|cbn; lia|cbn; lia].
  - apply (settles_more 1 m 0 0); try lia. unfold settles. cbn [EquilModel.iterate].
    unfold EquilModel.step. rewrite P, SS. cbn. split; [exists false; reflexivity|lia].
Qed.
Lemma sRem : forall m, pc St m = PRem -> remaining St m = 0 -> settles 6 m 0 0.
Proof.
  intros m P L.
  assert (E : step m = atPc St PStatus (setEnd St true m)).
  { unfold EquilModel.step. rewrite P, L. reflexivity. }
  apply (settles_step 5 m 0 0 0 0); rewrite E; [apply sStatus; [reflexivity|cbn; lia]|cbn; lia|cbn; lia].
Qed.
Lemma sSave : forall m, pc St m = PSave -> remaining St m = 0 -> settles 7 m 0 0.
Proof.
  intros m P L.
  assert (E : pc St (step m) = PRem /\ remaining St (step m) = 0 /\
              callsIn (trace St (step m)) = callsIn (trace St m) /\ incsIn (trace St (step m)) = incsIn (trace St m)).
  { unfold EquilModel.step. rewrite P. destruct (ready (sol St m) && _); cbn; auto. }
  destruct E as (E1 & E2 & E3 & E4).
  apply (settles_step 6 m 0 0 0 0); [apply sRem; assumption|lia|lia].
Qed.
Lemma sRet : forall m e, pc St m = PRet e -> remaining St m = 0 -> settles 8 m 0 0.
Proof.
  intros m e P L. apply (settles_step 7 m 0 0 0 0).
  - apply sSave; unfold EquilModel.step; rewrite P; [reflexivity|exact L].
  - unfold EquilModel.step; rewrite P; cbn; lia.
  - unfold EquilModel.step; rewrite P; cbn; lia.
Qed.
Lemma sCall : forall m, pc St m = PCall -> remaining St m = 0 -> settles 9 m 1 0.
Proof.
  intros m P L. destruct (call (calcIndex St m) (sol St m)) as [e s] eqn:CE.
  assert (E : step m = atPc St (PRet e) (note St (Called (calcIndex St m) e (ready s) (status s)) (setSol St s m))).
  { unfold EquilModel.step. rewrite P, CE. reflexivity. }
  apply (settles_step 8 m 0 0 1 0); rewrite E; [apply sRet with e; [reflexivity|exact L]|cbn; lia|cbn; lia].
Qed.
Lemma sWhile : forall m, pc St m = PWhile -> remaining St m = 0 -> settles 10 m 1 0.
Proof.
  intros m P L. destruct (silminEnd St m) eqn:SE.
  - assert (E : step m = atPc St PStatus m) by (unfold EquilModel.step; rewrite P, SE; reflexivity).
    apply (settles_more 6 m 0 0); try lia.
    apply (settles_step 5 m 0 0 0 0); rewrite E; [apply sStatus; [reflexivity|cbn; lia]|cbn; lia|cbn; lia].
  - assert (E : step m = atPc St PCall m) by (unfold EquilModel.step; rewrite P, SE; reflexivity).
    apply (settles_step 9 m 1 0 0 0); rewrite E; [apply sCall; [reflexivity|exact L]|cbn; lia|cbn; lia].
Qed.

(** Once the stop request has been made, anywhere but between the read and
    the write of the decrement, the run ends by itself after at most one more
    solver call and at most one more increment. *)
Theorem C58_stop_partial : forall m : Mach,
  pc St m <> PInit -> (forall v, pc St m <> PDecW v) ->
  let m' := iterate 11 (stop2 St (stop1 St m)) in
  (exists r, pc St m' = PDone r) /\
  (callsIn (trace St m') <= callsIn (trace St m) + 1)%nat /\
  (incsIn (trace St m') <= incsIn (trace St m) + 1)%nat.
Proof.
  intros m NI ND m'. change (settles 11 (stop2 St (stop1 St m)) 1 1).
  set (x := stop2 St (stop1 St m)). assert (R : remaining St x = 0) by reflexivity.
  assert (P : pc St x = pc St m) by reflexivity.
  destruct (pc St m) eqn:PM.
  - congruence.
  - apply (settles_more 1 x 0 0); try lia. apply sFor; [exact P|lia].
  - apply (settles_more 11 x 1 0); try lia. apply (settles_step 10 x 1 0 0 0).
    + apply sWhile; unfold EquilModel.step; rewrite P; [reflexivity|exact R].
    + unfold EquilModel.step; rewrite P; cbn; lia.
    + unfold EquilModel.step; rewrite P; cbn; lia.
  - apply (settles_more 10 x 1 0); try lia. apply sWhile; assumption.
  - apply (settles_more 9 x 1 0); try lia. apply sCall; assumption.
  - apply (settles_more 8 x 0 0); try lia. apply sRet with ended; assumption.
  - apply (settles_more 7 x 0 0); try lia. apply sSave; assumption.
  - apply (settles_more 6 x 0 0); try lia. apply sRem; assumption.
  - apply (settles_more 5 x 0 0); try lia. apply sStatus; [exact P|lia].
  - apply (settles_more 4 x 0 0); try lia. apply sInc; [exact P|lia].
  - apply (settles_more 4 x 0 1); try lia. apply sIncDo; [exact P|lia].
  - apply (settles_more 3 x 0 0); try lia. apply sDec; [exact P|lia].
  - exfalso. apply (ND v). reflexivity.
  - apply (settles_more 0 x 0 0); try lia. unfold settles. cbn [EquilModel.iterate].
    split; [exists result; exact P|lia].
Qed.
(** the same as a property of its own (C111) *)
Theorem C111_stop : forall m : Mach,
  pc St m <> PInit -> (forall v, pc St m <> PDecW v) ->
  let m' := iterate 11 (stop2 St (stop1 St m)) in
  (exists r, pc St m' = PDone r) /\
  (callsIn (trace St m') <= callsIn (trace St m) + 1)%nat /\
  (incsIn (trace St m') <= incsIn (trace St m) + 1)%nat.
Proof. exact C58_stop_partial. Qed.

End Stop.

(** * A solver that ends at every fourth call, making a result ready at the
    third, and counts the increments: the hypotheses above are met. *)
Record Toy : Type := mkToy { phase : nat; incs : nat; st : Z }.
Definition toyCall (i : Z) (s : Toy) : bool * Toy :=
  match phase s with
  | 0%nat => (false, mkToy 1 (incs s) (st s))
  | 1%nat => (false, mkToy 2 (incs s) (st s))
  | 2%nat => (false, mkToy 3 (incs s) (st s))
  | _ => (true, mkToy 0 (incs s) SILMIN_SUCCESS)
  end.
Definition toyReady (s : Toy) : bool := Nat.eqb (phase s) 3.
Definition toySet (z : Z) (s : Toy) : Toy := mkToy (phase s) (incs s) z.
Definition toyIncr (s : Toy) : Toy := mkToy (phase s) (S (incs s)) (st s).
Definition toyRun := iterate Toy toyCall toyReady st toySet toyIncr.
Definition toyStart (n last : Z) : Mach Toy :=
  SetCalcSteps Toy n (mkMach Toy PInit (mkToy 0 0 0) 1 0 true last 0 [] false false []).

Lemma toyEnds : forall i s, Ends Toy toyCall i s.
Proof.
  assert (E3 : forall i s, (3 <= phase s)%nat -> Ends Toy toyCall i s).
  { intros i [[|[|[|p]]] k t] L; cbn in L; try lia. apply EndsNow. reflexivity. }
  assert (E2 : forall i s, (2 <= phase s)%nat -> Ends Toy toyCall i s).
  { intros i [[|[|[|p]]] k t] L; cbn in L; try lia; [|apply E3; cbn; lia].
    apply EndsLater; [reflexivity|]. apply E3. cbn. lia. }
  assert (E1 : forall i s, (1 <= phase s)%nat -> Ends Toy toyCall i s).
  { intros i [[|[|p]] k t] L; cbn in L; try lia; [|apply E2; cbn; lia].
    apply EndsLater; [reflexivity|]. apply E2. cbn. lia. }
  intros i [[|p] k t]; [|apply E1; cbn; lia].
  apply EndsLater; [reflexivity|]. apply E1. cbn. lia.
Qed.

Theorem C22_case :
  (* three steps asked for, nothing saved before: four results *)
  let m := toyRun 200 (toyStart 3 0) in
  pc Toy m = PDone true /\ incs (sol Toy m) = 3%nat /\ map snd (steps Toy m) = [3; 2; 1; 0] /\
  (* the same with seven results saved before: three more *)
  let m := toyRun 200 (toyStart 3 7) in
  pc Toy m = PDone true /\ map snd (steps Toy m) = [9; 8; 7].
Proof. vm_compute. repeat split. Qed.

(** * The stop request can be lost: it comes between the read and the write
    of the decrement, and the run goes through all the steps asked for. *)
Theorem C58_refuted_lost_stop :
  let before := toyRun 28 (toyStart 3 0) in
  (exists v, pc Toy before = PDecW v) /\
  let after := stop2 Toy (stop1 Toy before) in
  let m := toyRun 200 after in
  pc Toy m = PDone true /\
  (callsIn (trace Toy m) = callsIn (trace Toy before) + 12)%nat /\
  (incsIn (trace Toy m) = incsIn (trace Toy before) + 2)%nat.
Proof. vm_compute. split; [eexists; reflexivity|]. repeat split. Qed.

(** A stop request made when the run has just ended reads the state that the
    run has set to null. *)
Theorem C59_refuted_stop_after_end :
  let m := toyRun 200 (toyStart 3 0) in
  pc Toy m = PDone true /\ stop3_crashes Toy (stop2 Toy (stop1 Toy m)) = true.
Proof. vm_compute. split; reflexivity. Qed.

(** While the run is under way the message can be written. *)
Theorem C59_stop_during_run_partial :
  forall (St : Type) (call : Z -> St -> bool * St) (ready : St -> bool) (status : St -> Z)
    (setStatus : Z -> St -> St) (incr : St -> St) (m0 : Mach St) (k : nat),
  pc St m0 = PInit -> (0 < k)%nat ->
  let m := iterate St call ready status setStatus incr k m0 in
  (forall r, pc St m <> PDone r) ->
  stop3_crashes St (stop2 St (stop1 St m)) = false.
Proof.
  intros St call ready status setStatus incr m0 k P K.
  set (Iv := fun m : Mach St => pc St m <> PInit /\ (current St m = true \/ exists r, pc St m = PDone r)).
  assert (S1 : Iv (step St call ready status setStatus incr m0)).
  { unfold Iv, EquilModel.step. rewrite P. cbv zeta. destruct (_ <? 0); cbn; (split; [discriminate|left; reflexivity]). }
  assert (SS : forall m, Iv m -> Iv (step St call ready status setStatus incr m)).
  { unfold Iv. intros m [NI C]. unfold EquilModel.step. destruct (pc St m) eqn:PM; try congruence;
      try (destruct C as [C|[r C]]; [|discriminate]).
    - destruct (0 <? _); cbn; (split; [discriminate|]); [left; exact C|right; eexists; reflexivity].
    - cbn. split; [discriminate|left; exact C].
    - destruct (silminEnd St m); cbn; (split; [discriminate|left; exact C]).
    - destruct (call _ _); cbn; (split; [discriminate|left; exact C]).
    - cbn. split; [discriminate|left; exact C].
    - destruct (_ && _); cbn; (split; [discriminate|left; exact C]).
    - destruct (_ =? 0); cbn; (split; [discriminate|left; exact C]).
    - destruct (_ =? _); cbn; (split; [discriminate|]); [left; exact C|right; eexists; reflexivity].
    - destruct (1 <? _); cbn; (split; [discriminate|left; exact C]).
    - cbn. split; [discriminate|left; exact C].
    - cbn. split; [discriminate|left; exact C].
    - cbn. split; [discriminate|left; exact C].
    - rewrite PM. split; [discriminate|right; eexists; reflexivity]. }
  assert (SI : forall j m, Iv m -> Iv (iterate St call ready status setStatus incr j m)).
  { induction j as [|j IH]; intros m I; [exact I|]. cbn [EquilModel.iterate]. apply IH, SS, I. }
  destruct k as [|k]; [lia|]. cbn [EquilModel.iterate]. cbv zeta. intros ND.
  destruct (SI k _ S1) as [_ [C|[r C]]].
  - unfold stop3_crashes. cbn [stop1 stop2 current setEnd setRemaining]. rewrite C. reflexivity.
  - exfalso. apply (ND r). exact C.
Qed.
(** the same as a property of its own (C112) *)
Theorem C112_stop_during_run :
  forall (St : Type) (call : Z -> St -> bool * St) (ready : St -> bool) (status : St -> Z)
    (setStatus : Z -> St -> St) (incr : St -> St) (m0 : Mach St) (k : nat),
  pc St m0 = PInit -> (0 < k)%nat ->
  let m := iterate St call ready status setStatus incr k m0 in
  (forall r, pc St m <> PDone r) ->
  stop3_crashes St (stop2 St (stop1 St m)) = false.
Proof. exact C59_stop_during_run_partial. Qed.
