(** The solution phases without ordering parameters: reflection of the checks
    on [SolnData]. *)
From Coq Require Import Reals QArith Qreals ZArith NArith List String Lia Lra Bool.
From Coquelicot Require Import Coquelicot.
From Verif Require Import Sym SymNorm SolnModel SolnSpec ConData ConProofs SolnData.
Import List ListNotations.
Local Open Scope R_scope.

(** leucite: the A-site and W-site fractions satisfy X0 X4 = X1 X3 (ignored where it does not hold) *)
Definition logRels : list (N * N * N * N) := [(0, 1, 3, 4)%N].
Fixpoint below (B : N) (x : expr) : bool :=
  match x with
  | Num _ | Site _ | Log _ => true
  | Var n => N.ltb n B
  | Sym.Add a b | Sub a b | Mul a b | Div a b => below B a && below B b
  | Neg a => below B a
  end.
(** direction of increase of the moles of component i, with the total amount in variable 90 *)
Definition moleDir (c : conv) (i : nat) (n : N) : expr :=
  if N.ltb n 2 then Num 0 else if N.ltb n 60 then
    (if (N.to_nat n - 2 <? cv_nr c)%nat then Div (Sub (Num (coef c (N.to_nat n - 2) i)) (Var n)) (Var 90) else Num 0) else Num 0.
(** direction of a path whose velocity is in the variables 60, 61, ... *)
Definition pathDir (n : N) : expr := if N.ltb n 2 then Num 0 else if N.ltb n 60 then Var (n + 58) else Num 0.

Section Checks.
Variable ph : phase.
Definition pD := deriveCheck (ph_sites ph) [0%N] logRels.
Definition pS := sameCheck (ph_sites ph) [0%N] logRels.
Definition pS' := sameCheck (ph_sites ph) [0%N; 90%N] logRels.
Definition gCheck : bool :=
  upto (ph_nr ph) (fun i => pD (rv i) (ph_g ph) (nth1 (ph_gx ph) i)
    && upto (ph_nr ph) (fun j => pD (rv j) (nth1 (ph_gx ph) i) (nth2 (ph_gxx ph) i j)
      && upto (ph_nr ph) (fun k => pD (rv k) (nth2 (ph_gxx ph) i j) (nth3 (ph_gxxx ph) i j k)))).
Definition sCheck : bool :=
  pD 0 (ph_g ph) (Neg (ph_s ph)) && pS (ph_h ph) (Sym.Add (ph_g ph) (Mul (Var 0) (ph_s ph)))
  && pD 0 (ph_s ph) (Div (ph_c ph) (Var 0)) && pD 0 (ph_c ph) (ph_ct ph)
  && upto (ph_nr ph) (fun i => pD (rv i) (ph_s ph) (nth1 (ph_sx ph) i) && pD (rv i) (ph_c ph) (nth1 (ph_cx ph) i)
    && upto (ph_nr ph) (fun j => pD (rv j) (nth1 (ph_sx ph) i) (nth2 (ph_sxx ph) i j))).
Definition vCheck : bool :=
  pD 1 (ph_g ph) (ph_v ph) && pD 0 (ph_v ph) (ph_vt ph) && pD 1 (ph_v ph) (ph_vp ph)
  && pD 0 (ph_vt ph) (ph_vtt ph) && pD 1 (ph_vt ph) (ph_vtp ph) && pD 1 (ph_vp ph) (ph_vpp ph)
  && upto (ph_nr ph) (fun i => pD (rv i) (ph_v ph) (nth1 (ph_vx ph) i)
    && pD 0 (nth1 (ph_vx ph) i) (nth1 (ph_vxt ph) i) && pD 1 (nth1 (ph_vx ph) i) (nth1 (ph_vxp ph) i)
    && upto (ph_nr ph) (fun j => pD (rv j) (nth1 (ph_vx ph) i) (nth2 (ph_vxx ph) i j))).
Definition gasR : expr := Num (83143 # 10000).
Definition aCheck : bool :=
  upto (ph_na ph) (fun i => pS (nth1 (ph_aArg ph) i) (Div (nth1 (ph_mu ph) i) (Mul gasR (Var 0)))
    && below 60 (nth1 (ph_mu ph) i)
    && pS' (nth1 (ph_mu ph) i) (Sym.Add (ph_g ph) (Mul (Var 90) (diff (ph_sites ph) (moleDir (ph_con ph) i) (ph_g ph))))
    && upto (ph_nr ph) (fun k => pD (rv k) (nth1 (ph_aArg ph) i) (nth2 (ph_aDx ph) i k)))
  && pS (sumE (ph_na ph) (fun i => Mul (nth1 (cv_xr (ph_con ph)) i) (nth1 (ph_mu ph) i))) (ph_g ph)
  && pS (sumE (ph_na ph) (fun i => Mul (nth1 (cv_xr (ph_con ph)) i) (diff (ph_sites ph) pathDir (nth1 (ph_mu ph) i)))) (Num 0).
Definition wfCheck : bool :=
  Nat.eqb (cv_na (ph_con ph)) (ph_na ph) && Nat.eqb (cv_nr (ph_con ph)) (ph_nr ph) && (ph_nr ph <? 18)%nat
  && conCheck (ph_con ph) && below 60 (ph_g ph) && forallb (fun s => below 60 (raw s)) (ph_sites ph) && sitesOk (ph_sites ph).
End Checks.

Lemma phases_g : forallb gCheck phases = true. Proof. vm_compute. reflexivity. Qed.
Lemma phases_s : forallb sCheck phases = true. Proof. vm_compute. reflexivity. Qed.
Lemma phases_v : forallb vCheck phases = true. Proof. vm_compute. reflexivity. Qed.
Lemma phases_wf : forallb wfCheck phases = true. Proof. vm_compute. reflexivity. Qed.
Lemma phases_a : forallb aCheck phases = true. Proof. vm_compute. reflexivity. Qed.

(** ** Points and paths *)
Lemma pt_rv t p r i : pt t p r (rv i) = r i.
Proof. unfold pt, rv. destruct (N.of_nat (i + 2)) as [|[q|q|]] eqn:E; try lia; f_equal; lia. Qed.
Lemma pt_big t p r n : (2 <= n)%N -> pt t p r n = r (N.to_nat n - 2)%nat.
Proof. intros H. unfold pt. destruct n as [|[q|q|]]; try lia; reflexivity. Qed.
Lemma pt_0 t p r : pt t p r 0%N = t. Proof. reflexivity. Qed.
Lemma pt_1 t p r : pt t p r 1%N = p. Proof. reflexivity. Qed.
Lemma small_n n : (n = 0 \/ n = 1 \/ 2 <= n)%N. Proof. lia. Qed.
Lemma pt_setT t p r y n : pt y p r n = set (pt t p r) 0 y n.
Proof. destruct (small_n n) as [->|[->|H]]; auto. unfold set. destruct (N.eqb_spec n 0); [lia|]. now rewrite !pt_big. Qed.
Lemma pt_setP t p r y n : pt t y r n = set (pt t p r) 1 y n.
Proof. destruct (small_n n) as [->|[->|H]]; auto. unfold set. destruct (N.eqb_spec n 1); [lia|]. now rewrite !pt_big. Qed.
Lemma pt_setX t p r i y n : pt t p (upd r i y) n = set (pt t p r) (rv i) y n.
Proof.
  unfold set, rv. destruct (small_n n) as [->|[->|H]].
  - destruct (N.eqb_spec 0 (N.of_nat (i + 2))); [lia|auto].
  - destruct (N.eqb_spec 1 (N.of_nat (i + 2))); [lia|auto].
  - rewrite !pt_big by auto. unfold upd. destruct (N.eqb_spec n (N.of_nat (i + 2))), (Nat.eqb_spec (N.to_nat n - 2) i); auto; lia.
Qed.
Lemma below_val B s1 s2 e1 e2 x : below B x = true -> (forall k, s1 k = s2 k) -> (forall n, (n < B)%N -> e1 n = e2 n) -> val s1 e1 x = val s2 e2 x.
Proof.
  intros H Hs He. induction x; cbn in *; auto; try (apply andb_prop in H; destruct H; f_equal; auto).
  - apply N.ltb_lt in H. auto.
  - f_equal; auto.
  - now rewrite Hs.
Qed.
Lemma nth_site_cases ss k : In (nth_site ss k) ss \/ nth_site ss k = mkSite (Num 1) Free.
Proof. unfold nth_site. destruct (nth_in_or_default (N.to_nat k) ss (mkSite (Num 1) Free)); auto. Qed.
Lemma below_denote ss B e1 e2 x : forallb (fun s => below B (raw s)) ss = true -> below B x = true ->
  (forall n, (n < B)%N -> e1 n = e2 n) -> denote ss e1 x = denote ss e2 x.
Proof.
  intros HS H He. unfold denote. apply (below_val B); auto. intros k. unfold siteVal. f_equal. unfold rawVal.
  apply (below_val B); auto. destruct (nth_site_cases ss k) as [I| ->]; [|reflexivity]. rewrite forallb_forall in HS. now apply HS.
Qed.
Lemma below_inside ss B e1 e2 : forallb (fun s => below B (raw s)) ss = true -> (0 < B)%N ->
  (forall n, (n < B)%N -> e1 n = e2 n) -> inside ss [0%N] e1 -> inside ss [0%N] e2.
Proof.
  intros HS HB He [A P]. split.
  - intros s I. rewrite forallb_forall in HS. specialize (A s I). unfold rawVal in *. rewrite <- (below_val B (fun _ => 0) (fun _ => 0) e1 e2); auto.
  - intros v [<-|[]]. rewrite <- He by auto. apply P. now left.
Qed.

Section Phase.
Variable ph : phase.
Definition feasible (t p : R) (r : nat -> R) : Prop :=
  0 < t /\ forall s, In s (ph_sites ph) -> clear_of (guard s) (rawVal (pt t p r) (raw s)).
Lemma feasible_inside t p r : feasible t p r -> inside (ph_sites ph) [0%N] (pt t p r).
Proof. intros [H1 H2]. split; auto. intros v [<-|[]]. exact H1. Qed.
Variables (t p : R) (r : nat -> R).
Hypothesis F : feasible t p r.

Lemma call_T x d : pD ph 0 x d = true -> partialT (call ph x) t p r (call ph d t p r).
Proof.
  intros D. apply deriveCheck_ok in D. specialize (D _ (feasible_inside t p r F)). unfold partialT, call.
  revert D. rewrite pt_0. apply is_derive_ext. intros y. apply denote_ext. intros n. symmetry. apply pt_setT.
Qed.
Lemma call_P x d : pD ph 1 x d = true -> partialP (call ph x) t p r (call ph d t p r).
Proof.
  intros D. apply deriveCheck_ok in D. specialize (D _ (feasible_inside t p r F)). unfold partialP, call.
  revert D. rewrite pt_1. apply is_derive_ext. intros y. apply denote_ext. intros n. symmetry. apply pt_setP.
Qed.
Lemma call_X i x d : pD ph (rv i) x d = true -> partialX i (call ph x) t p r (call ph d t p r).
Proof.
  intros D. apply deriveCheck_ok in D. specialize (D _ (feasible_inside t p r F)). unfold partialX, call.
  revert D. rewrite pt_rv. apply is_derive_ext. intros y. apply denote_ext. intros n. symmetry. apply pt_setX.
Qed.
Lemma call_same x y : pS ph x y = true -> call ph x t p r = call ph y t p r.
Proof. intros D. apply sameCheck_ok in D. apply D. now apply feasible_inside. Qed.

(** values in the variables from 60 on *)
Definition ext (X : N -> R) (rr : nat -> R) : env := fun n => if N.ltb n 60 then pt t p rr n else X n.
Lemma ext_pt X rr n : (n < 60)%N -> pt t p rr n = ext X rr n.
Proof. intros H. unfold ext. apply N.ltb_lt in H. now rewrite H. Qed.
Hypothesis W : wfCheck ph = true.
Lemma wf : cv_na (ph_con ph) = ph_na ph /\ cv_nr (ph_con ph) = ph_nr ph /\ (ph_nr ph < 18)%nat /\ conCheck (ph_con ph) = true
  /\ below 60 (ph_g ph) = true /\ forallb (fun s => below 60 (raw s)) (ph_sites ph) = true /\ sitesOk (ph_sites ph) = true.
Proof.
  pose proof W as K. unfold wfCheck in K. do 6 (apply andb_prop in K; let A := fresh in destruct K as [K A]).
  apply Nat.eqb_eq in K, H4. apply Nat.ltb_lt in H3. auto 8.
Qed.
(** along a path in composition *)
Lemma path_ok X (rr : R -> nat -> R) s0 dir x :
  (forall j, rr s0 j = r j) ->
  (forall n, (2 <= n < 60)%N -> is_derive (fun s => rr s (N.to_nat n - 2)%nat) s0 (val1 (ph_sites ph) (ext X r) (dir n))) ->
  (forall n, (n < 2 \/ 60 <= n)%N -> dir n = Num 0) ->
  below 60 x = true -> domOk (ph_sites ph) [0%N] x = true ->
  is_derive (fun s => call ph x t p (rr s)) s0 (val1 (ph_sites ph) (ext X r) (diff (ph_sites ph) dir x)).
Proof.
  intros E Dr D0 Bx Dx. destruct wf as (_ & _ & _ & _ & _ & BS & SO).
  assert (Ins : inside (ph_sites ph) [0%N] (ext X r)).
  { apply (below_inside _ 60 (pt t p r)); auto; [lia|intros; now apply ext_pt|now apply feasible_inside]. }
  apply (is_derive_ext (fun s => denote (ph_sites ph) (ext X (rr s)) x)).
  - intros s. unfold call. apply (below_denote _ 60); auto. intros. symmetry. now apply ext_pt.
  - apply (diff_ok (ph_sites ph) [0%N] (ext X r) Ins (fun s => ext X (rr s)) s0); auto.
    + intros n. unfold ext. destruct (N.ltb n 60); auto. destruct (small_n n) as [->|[->|H]]; auto. now rewrite !pt_big.
    + intros n. unfold ext at 1. destruct (N.ltb_spec n 60).
      * destruct (small_n n) as [->|[->|H1]].
        -- rewrite D0 by lia. cbn. rewrite Q2R_0. apply (is_derive_const (K:=R_AbsRing) (V:=R_NormedModule)).
        -- rewrite D0 by lia. cbn. rewrite Q2R_0. apply (is_derive_const (K:=R_AbsRing) (V:=R_NormedModule)).
        -- apply (is_derive_ext (fun s => rr s (N.to_nat n - 2)%nat)); [intros; now rewrite pt_big|]. apply Dr. lia.
      * rewrite D0 by lia. cbn. rewrite Q2R_0. apply (is_derive_const (K:=R_AbsRing) (V:=R_NormedModule)).
Qed.
End Phase.

Section Potentials.
Variable ph : phase.
Hypothesis W : wfCheck ph = true.
Hypothesis A : aCheck ph = true.
Notation c := (ph_con ph).
Notation na := (ph_na ph).
Lemma acheck : (forall i, (i < na)%nat -> pS ph (nth1 (ph_aArg ph) i) (Div (nth1 (ph_mu ph) i) (Mul gasR (Var 0))) = true
    /\ below 60 (nth1 (ph_mu ph) i) = true
    /\ pS' ph (nth1 (ph_mu ph) i) (Sym.Add (ph_g ph) (Mul (Var 90) (diff (ph_sites ph) (moleDir c i) (ph_g ph)))) = true
    /\ forall k, (k < ph_nr ph)%nat -> pD ph (rv k) (nth1 (ph_aArg ph) i) (nth2 (ph_aDx ph) i k) = true)
  /\ pS ph (sumE na (fun i => Mul (nth1 (cv_xr c) i) (nth1 (ph_mu ph) i))) (ph_g ph) = true
  /\ pS ph (sumE na (fun i => Mul (nth1 (cv_xr c) i) (diff (ph_sites ph) pathDir (nth1 (ph_mu ph) i)))) (Num 0) = true.
Proof.
  pose proof A as K. unfold aCheck in K. apply andb_prop in K. destruct K as [K K3]. apply andb_prop in K. destruct K as [K K2].
  split; auto. intros i L. apply (upto_ok _ _ i) in K; auto. apply andb_prop in K. destruct K as [K Q4]. apply andb_prop in K. destruct K as [K Q3].
  apply andb_prop in K. destruct K as [Q1 Q2]. split; auto. split; auto. split; auto. intros k Lk. now apply (upto_ok _ _ k) in Q4.
Qed.
Lemma domOk_sum ss pos x n f : domOk ss pos x = true -> x = sumE n f -> forall i, (i < n)%nat -> domOk ss pos (f i) = true.
Proof.
  revert x. induction n; intros x H -> i L; [lia|]. cbn in H. apply andb_prop in H. destruct H as [H1 H2].
  destruct (Nat.eq_dec i n); [now subst|]. apply (IHn (sumE n f)); auto. lia.
Qed.
Lemma same_dom ss pos rels x y : sameCheck ss pos rels x y = true -> domOk ss pos x = true /\ domOk ss pos y = true.
Proof. unfold sameCheck. intros H. apply andb_prop in H. destruct H as [H _]. now apply andb_prop in H. Qed.

Variables (t p : R) (m : nat -> R).
Notation r := (fun j => con_r c j m).
Hypothesis P : 0 < total na m.
Hypothesis F : feasible ph t p r.
Lemma Pc : 0 < total (cv_na c) m.
Proof. destruct (wf ph W) as (-> & _). exact P. Qed.
Lemma Cc : conCheck c = true. Proof. apply (wf ph W). Qed.

Lemma inside_more X : inside (ph_sites ph) [0%N] (ext t p X r) -> 0 < X 90%N -> inside (ph_sites ph) [0%N; 90%N] (ext t p X r).
Proof. intros [I1 I2] H. split; auto. intros v [<-|[<-|[]]]; [apply I2; now left|exact H]. Qed.
Lemma ext_inside X : inside (ph_sites ph) [0%N] (ext t p X r).
Proof.
  destruct (wf ph W) as (_ & _ & _ & _ & _ & BS & SO).
  apply (below_inside _ 60 (pt t p r)); auto; [lia|intros; now apply ext_pt|now apply feasible_inside].
Qed.

(** chemical potentials are the derivatives of the total free energy with respect to moles *)
Lemma mu_partial i : (i < na)%nat ->
  partialM i (fun m' => total na m' * gmix ph t p (fun j => con_r c j m')) m (act_mu ph i t p r).
Proof.
  intros L. destruct (wf ph W) as (Ena & Enr & _ & _ & Bg & BS & SO). destruct (proj1 acheck i L) as (_ & Bmu & Smu & _).
  set (X := fun n : N => total na m).
  assert (Dg : domOk (ph_sites ph) [0%N] (ph_g ph) = true) by (apply (proj2 (same_dom _ _ _ _ _ (proj1 (proj2 acheck))))).
  assert (Lc : (i < cv_na c)%nat) by (rewrite Ena; exact L).
  assert (G : is_derive (fun y => gmix ph t p (fun j => con_r c j (upd m i y))) (m i) (val1 (ph_sites ph) (ext t p X r) (diff (ph_sites ph) (moleDir c i) (ph_g ph)))).
  { apply (path_ok ph t p r F W X (fun y j => con_r c j (upd m i y)) (m i) (moleDir c i) (ph_g ph)); auto.
    - intros j. unfold con_r, conCall.
      assert (E : forall n, mpt (upd m i (m i)) n = mpt m n) by (intros; unfold mpt, upd; destruct (N.ltb n 20); auto; destruct (Nat.eqb_spec (N.to_nat n - 20) i); subst; auto).
      rewrite total_upd. destruct (Nat.ltb_spec i (cv_na c)); [|lia]. replace (total (cv_na c) m + (m i - m i)) with (total (cv_na c) m) by lra.
      destruct (Req_EM_T _ _); auto. now apply denote_ext.
    - intros n Hn. unfold moleDir. destruct (N.ltb_spec n 2); [lia|]. destruct (N.ltb_spec n 60); [|lia].
      destruct (Nat.ltb_spec (N.to_nat n - 2) (cv_nr c)) as [Lj|Lj].
      + eapply is_derive_eq'.
        * apply (con_partial c Cc); [|exact Pc]. destruct (proj1 (proj2 (proj2 (proj2 (ck c Cc)))) _ i Lj Lc) as (Q & _). exact Q.
        * unfold val1. cbn [val]. change (conCall c (nth2 (cv_dm c) (N.to_nat n - 2) i) m) with (con_dm c (N.to_nat n - 2) i m).
          rewrite (con_dm_lin c Cc) by auto using Pc. unfold ext at 1 2. destruct (N.ltb_spec n 60); [|lia]. rewrite pt_big by lia.
          change (N.ltb 90 60) with false. cbn iota. unfold X. now rewrite <- Ena.
      + cbn. rewrite Q2R_0. apply (is_derive_ext (fun _ => 0)).
        * intros y. symmetry. apply (con_r_out c Cc). exact Lj.
        * apply (is_derive_const (K:=R_AbsRing) (V:=R_NormedModule)).
    - intros n Hn. unfold moleDir. destruct (N.ltb_spec n 2); auto. destruct (N.ltb_spec n 60); auto. lia. }
  apply sameCheck_ok in Smu. specialize (Smu (ext t p X r)).
  assert (I2 : inside (ph_sites ph) [0%N; 90%N] (ext t p X r)) by (apply inside_more; [apply ext_inside|exact P]).
  specialize (Smu I2).
  assert (T : is_derive (fun y => total na (upd m i y)) (m i) 1).
  { apply (is_derive_ext (fun y => total na m + (y - m i))).
    - intros y. rewrite <- Ena. rewrite total_upd. destruct (Nat.ltb_spec i (cv_na c)); [auto|lia].
    - auto_derive; auto. }
  unfold partialM. eapply is_derive_eq'.
  - apply (is_derive_mult _ _ _ _ _ T G). intros; apply Rmult_comm.
  - unfold plus, mult; cbn. 
    assert (EU : forall j, upd m i (m i) j = m j) by (intros j; unfold upd; destruct (Nat.eqb_spec j i); subst; auto).
    assert (ET : total na (upd m i (m i)) = total na m). { clear - EU. induction na; cbn; auto. now rewrite IHn, EU. }
    assert (EG : gmix ph t p (fun j => con_r c j (upd m i (m i))) = gmix ph t p r).
    { unfold gmix, call. apply denote_ext. intros n. destruct (small_n n) as [->|[->|H]]; auto. rewrite !pt_big by auto.
      unfold con_r, conCall. assert (ET' : total (cv_na c) (upd m i (m i)) = total (cv_na c) m) by (rewrite Ena; exact ET). rewrite ET'.
      destruct (Req_EM_T _ _); auto. apply denote_ext. intros n'. unfold mpt. destruct (N.ltb n' 20); auto. }
    rewrite ET, EG. unfold act_mu, gmix, call in *.
    rewrite (below_denote _ 60 (pt t p r) (ext t p X r) (ph_g ph)) by (auto; intros; now apply ext_pt).
    rewrite (below_denote _ 60 (pt t p r) (ext t p X r) (nth1 (ph_mu ph) i)) by (auto; intros; now apply ext_pt).
    rewrite Smu. unfold denote at 2. cbn [val]. fold (denote (ph_sites ph) (ext t p X r) (ph_g ph)).
    fold (denote (ph_sites ph) (ext t p X r) (diff (ph_sites ph) (moleDir c i) (ph_g ph))).
    rewrite (denote_val1 _ _ _ I2 (diff (ph_sites ph) (moleDir c i) (ph_g ph))).
    + change (ext t p X r 90%N) with (total na m). lra.
    + pose proof (proj2 (same_dom _ _ _ _ _ (proj1 (proj2 (proj2 (proj1 acheck i L)))))) as Q. cbn in Q. now apply andb_prop in Q.
Qed.

(** Euler *)
Lemma euler : sumTo na (fun i => m i * act_mu ph i t p r) = total na m * gmix ph t p r.
Proof.
  destruct (wf ph W) as (Ena & _). pose proof (proj1 (proj2 acheck)) as E. apply (call_same ph t p r F) in E.
  unfold call in E. rewrite sumE_ok in E. fold (call ph (ph_g ph) t p r) in E. unfold gmix. rewrite <- E.
  rewrite <- sumTo_scal. apply sumTo_ext. intros i L. rewrite denote_mul.
  assert (Lc : (i < cv_na c)%nat) by (rewrite Ena; exact L).
  assert (Q : denote (ph_sites ph) (pt t p r) (nth1 (cv_xr c) i) = m i / total na m).
  { rewrite <- Ena. rewrite <- (xr_of_r c Cc m i Pc Lc). 
    destruct (proj2 (proj2 (proj2 (proj2 (proj2 (ck c Cc))))) i Lc) as (_ & (RO & F2) & _).
    apply xr_local; auto. intros n H. unfold rpt. destruct (N.ltb_spec n 2); [lia|]. apply pt_big. lia. }
  rewrite Q. unfold act_mu, call. field. lra.
Qed.

(** Gibbs-Duhem along a differentiable path of moles *)
Lemma lin_diff (mm : R -> nat -> R) s0 (q : nat -> R) n : (forall k, ex_derive (fun s => mm s k) s0) ->
  ex_derive (fun s => sumTo n (fun k => q k * mm s k)) s0.
Proof.
  intros H. induction n; cbn; [apply ex_derive_const|]. apply (ex_derive_plus (K:=R_AbsRing) (V:=R_NormedModule)); auto. apply ex_derive_scal. auto.
Qed.
Lemma gibbs_duhem (mm : R -> nat -> R) s0 : (forall k, mm s0 k = m k) -> (forall k, ex_derive (fun s => mm s k) s0) ->
  exists D : nat -> R, (forall i, (i < na)%nat -> is_derive (fun s => act_mu ph i t p (fun j => con_r c j (mm s))) s0 (D i))
    /\ sumTo na (fun i => m i * D i) = 0.
Proof.
  intros E0 ED. destruct (wf ph W) as (Ena & Enr & _).
  assert (T0 : forall f, (forall k, f k = m k) -> total (cv_na c) f = total (cv_na c) m).
  { intros f Hf. change (sumTo (cv_na c) f = sumTo (cv_na c) m). apply sumTo_ext. auto. }
  assert (TD : ex_derive (fun s => total (cv_na c) (mm s)) s0).
  { apply (ex_derive_ext (fun s => sumTo (cv_na c) (fun k => 1 * mm s k))); [|now apply lin_diff].
    intros s. transitivity (sumTo (cv_na c) (mm s)); [apply sumTo_ext; intros; apply Rmult_1_l|reflexivity]. }
  assert (TN : locally s0 (fun s => 0 < total (cv_na c) (mm s))).
  { apply (ex_derive_continuous (K:=R_AbsRing) (V:=R_NormedModule)) in TD. apply TD. apply (open_gt 0). rewrite T0 by auto. apply Pc. }
  assert (RD : forall j, ex_derive (fun s => con_r c j (mm s)) s0).
  { intros j. destruct (Nat.lt_ge_cases j (cv_nr c)) as [L|L].
    - apply (ex_derive_ext_loc (fun s => sumTo (cv_na c) (fun k => Q2R (coef c j k) * mm s k) / total (cv_na c) (mm s))).
      + revert TN. apply filter_imp. intros s H. symmetry. now apply (con_r_lin c Cc).
      + apply ex_derive_div; [now apply lin_diff|exact TD|]. rewrite T0 by auto. apply Rgt_not_eq. apply Pc.
    - apply (ex_derive_ext (fun _ => 0)); [intros; symmetry; now apply (con_r_out c Cc)|apply ex_derive_const]. }
  set (d := fun j => Derive (fun s => con_r c j (mm s)) s0).
  set (X := fun n : N => d (N.to_nat n - 60)%nat).
  exists (fun i => val1 (ph_sites ph) (ext t p X r) (diff (ph_sites ph) pathDir (nth1 (ph_mu ph) i))).
  assert (Deul := proj1 (same_dom _ _ _ _ _ (proj1 (proj2 acheck)))).
  assert (Dgd := proj1 (same_dom _ _ _ _ _ (proj2 (proj2 acheck)))).
  split.
  - intros i L. destruct (proj1 acheck i L) as (_ & Bmu & _).
    apply (path_ok ph t p r F W X (fun s j => con_r c j (mm s)) s0 pathDir); auto.
    + intros j. unfold con_r, conCall. rewrite T0 by auto. destruct (Req_EM_T _ _); auto. apply denote_ext. intros n'. unfold mpt. destruct (N.ltb n' 20); auto.
    + intros n Hn. unfold pathDir. destruct (N.ltb_spec n 2); [lia|]. destruct (N.ltb_spec n 60); [|lia].
      unfold val1. cbn [val]. unfold ext. destruct (N.ltb_spec (n + 58) 60); [lia|]. unfold X, d.
      replace (N.to_nat (n + 58) - 60)%nat with (N.to_nat n - 2)%nat by lia. apply Derive_correct. apply RD.
    + intros n Hn. unfold pathDir. destruct (N.ltb_spec n 2); auto. destruct (N.ltb_spec n 60); auto. lia.
    + pose proof (domOk_sum _ _ _ _ _ Deul eq_refl i L) as Q. cbn in Q. now apply andb_prop in Q.
  - pose proof (proj2 (proj2 acheck)) as Z. apply sameCheck_ok in Z. specialize (Z (ext t p X r) (ext_inside X)).
    rewrite sumE_ok, denote_num, Q2R_0 in Z. apply Rmult_eq_reg_l with (/ total na m); [|apply Rinv_neq_0_compat; lra].
    rewrite Rmult_0_r, <- Z, <- sumTo_scal. apply sumTo_ext. intros i L. rewrite denote_mul.
    assert (Lc : (i < cv_na c)%nat) by (rewrite Ena; exact L).
    assert (Q : denote (ph_sites ph) (ext t p X r) (nth1 (cv_xr c) i) = m i / total na m).
    { rewrite <- Ena. rewrite <- (xr_of_r c Cc m i Pc Lc).
      destruct (proj2 (proj2 (proj2 (proj2 (proj2 (ck c Cc))))) i Lc) as (_ & (RO & F2) & _ & _).
      apply xr_local; auto. intros n H. unfold rpt, ext. destruct (N.ltb_spec n 2); [lia|]. destruct (N.ltb_spec n 60); [|lia]. apply pt_big. lia. }
    rewrite Q. rewrite (denote_val1 _ _ _ (ext_inside X)).
    + field. lra.
    + pose proof (domOk_sum _ _ _ _ _ Dgd eq_refl i L) as Q'. cbn in Q'. now apply andb_prop in Q'.
Qed.
End Potentials.
