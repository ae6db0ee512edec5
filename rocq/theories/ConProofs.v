(** The conversion functions: reflection of the checks on [ConData]. *)
From Coq Require Import Reals QArith Qreals ZArith NArith List String Lia Lra Bool.
From Coquelicot Require Import Coquelicot.
From Verif Require Import Sym SymNorm SolnModel SolnSpec ConData.
Import List ListNotations.
Local Open Scope R_scope.

Lemma denote_ext ss e1 e2 x : (forall n, e1 n = e2 n) -> denote ss e1 x = denote ss e2 x.
Proof.
  intros H. unfold denote. apply val_ext; auto. intros k. unfold siteVal. f_equal. unfold rawVal. apply val_ext; auto.
Qed.
Lemma inside_ext ss pos e1 e2 : (forall n, e1 n = e2 n) -> inside ss pos e1 -> inside ss pos e2.
Proof.
  intros H [A B]. split; intros; [|rewrite <- H; auto]. unfold rawVal. rewrite <- (val_ext (fun _ => 0) (fun _ => 0) e1 e2); auto.
Qed.
Lemma same_trans ss pos e x y : same ss pos x y -> inside ss pos e -> denote ss e x = denote ss e y.
Proof. auto. Qed.
Ltac req := match goal with |- ?a = ?b => change (@eq R a b) end.

(** ** Substitution into expressions without site fractions *)
Fixpoint subst (sg : N -> expr) (x : expr) : expr :=
  match x with
  | Num q => Num q
  | Var n => sg n
  | Site k => Site k
  | Sym.Add a b => Sym.Add (subst sg a) (subst sg b)
  | Sub a b => Sub (subst sg a) (subst sg b)
  | Mul a b => Mul (subst sg a) (subst sg b)
  | Div a b => Div (subst sg a) (subst sg b)
  | Neg a => Neg (subst sg a)
  | Log k => Log k
  end.
Lemma subst_ok ss e sg x : rawOk x = true -> denote ss e (subst sg x) = denote [] (fun n => denote ss e (sg n)) x.
Proof.
  unfold denote. induction x; cbn; intros H; try discriminate H; auto.
  - apply andb_prop in H. destruct H. f_equal; auto.
  - apply andb_prop in H. destruct H. f_equal; auto.
  - apply andb_prop in H. destruct H. f_equal; auto.
  - destruct x2; try discriminate H. apply andb_prop in H. destruct H. cbn. f_equal; auto.
  - f_equal; auto.
Qed.

(** ** Rational value of an expression at a rational point (sites given) *)
Fixpoint qval (s e : N -> Q) (x : expr) : Q :=
  match x with
  | Num q => q | Var n => e n | Site k => s k
  | Sym.Add a b => Qred (qval s e a + qval s e b) | Sub a b => Qred (qval s e a - qval s e b)
  | Mul a b => Qred (qval s e a * qval s e b) | Div a b => Qred (qval s e a / qval s e b)
  | Neg a => Qopp (qval s e a) | Log k => 0
  end%Q.

Definition upto (n : nat) (f : nat -> bool) : bool := forallb f (seq 0 n).
Lemma upto_ok n f i : upto n f = true -> (i < n)%nat -> f i = true.
Proof. unfold upto. rewrite forallb_forall. intros H L. apply H. apply in_seq. lia. Qed.
Definition rv (i : nat) : N := N.of_nat (i + 2).
Definition mv (i : nat) : N := N.of_nat (i + 20).

(** coefficient of m_k in the numerator of r_j: the value of r_j for one mole of component k *)
Definition coef (c : conv) (j k : nat) : Q :=
  qval (fun _ => 1%Q) (fun n => if N.eqb n (mv k) then 1%Q else 0%Q) (nth1 (cv_r c) j).
Fixpoint sumE (n : nat) (f : nat -> expr) : expr := match n with O => Num 0 | S n' => Sym.Add (sumE n' f) (f n') end.
Lemma sumE_ok ss e n f : denote ss e (sumE n f) = sumTo n (fun i => denote ss e (f i)).
Proof. unfold denote. induction n; cbn. - apply Q2R_0. - now rewrite IHn. Qed.

(** only the variables from 2 to 59 *)
Fixpoint from2 (x : expr) : bool :=
  match x with
  | Num _ | Site _ | Log _ => true
  | Var n => N.leb 2 n && N.ltb n 60
  | Sym.Add a b | Sub a b | Mul a b | Div a b => from2 a && from2 b
  | Neg a => from2 a
  end.
Lemma from2_val s e1 e2 x : from2 x = true -> (forall n, (2 <= n < 60)%N -> e1 n = e2 n) -> val s e1 x = val s e2 x.
Proof.
  intros H He. induction x; cbn in *; auto; try (apply andb_prop in H; destruct H; f_equal; auto; fail).
  - apply andb_prop in H. destruct H as [H1 H2]. apply N.leb_le in H1. apply N.ltb_lt in H2. auto.
  - f_equal; auto.
Qed.
Lemma xr_local s1 s2 e1 e2 x : rawOk x = true -> from2 x = true -> (forall n, (2 <= n < 60)%N -> e1 n = e2 n) -> denote s1 e1 x = denote s2 e2 x.
Proof. intros H1 H2 He. unfold denote. rewrite (rawOk_val x (siteVal s1 e1) (siteVal s2 e2)) by auto. now apply from2_val. Qed.
Section Checks.
Variable c : conv.
Definition cD := deriveCheck (con_sites c) [] [].
Definition cS := sameCheck (con_sites c) [] [].
Definition linear (j : nat) : expr := Div (sumE (cv_na c) (fun k => Mul (Num (coef c j k)) (Var (mv k)))) (Site 0).
Definition conCheck : bool :=
  (1 <=? cv_na c)%nat && (cv_nr c <? 18)%nat
  && Nat.eqb (length (cv_r c)) (cv_nr c)
  && upto (cv_nr c) (fun j => cS (nth1 (cv_r c) j) (linear j)
       && sameCheck [] [] [] (sumE (cv_na c) (fun k => Mul (Num (coef c j k)) (nth1 (cv_xr c) k))) (Var (rv j))
       && upto (cv_na c) (fun k => cD (mv k) (nth1 (cv_r c) j) (nth2 (cv_dm c) j k)
            && cS (nth2 (cv_dm c) j k) (Div (Sub (Num (coef c j k)) (nth1 (cv_r c) j)) (Site 0))
            && upto (cv_na c) (fun l => cD (mv l) (nth2 (cv_dm c) j k) (nth3 (cv_d2m c) j k l)
                 && upto (cv_na c) (fun h => cD (mv h) (nth3 (cv_d2m c) j k l) (nth4 (cv_d3m c) j k l h)))))
  && sameCheck [] [] [] (sumE (cv_na c) (fun k => nth1 (cv_xr c) k)) (Num 1)
  && upto (cv_na c) (fun i => cS (nth1 (cv_x c) i) (Div (Var (mv i)) (Site 0))
       && (rawOk (nth1 (cv_xr c) i) && from2 (nth1 (cv_xr c) i))
       && cS (subst (fun n => if N.ltb n 2 then Num 0 else nth1 (cv_r c) (N.to_nat n - 2)) (nth1 (cv_xr c) i)) (Div (Var (mv i)) (Site 0))
       && upto (cv_nr c) (fun j => deriveCheck [] [] [] (rv j) (nth1 (cv_xr c) i) (nth2 (cv_dr c) i j))).
End Checks.

Lemma convs_ok : forallb conCheck convs = true.
Proof. vm_compute. reflexivity. Qed.

(** ** Reading the check *)
Lemma denote_var ss e n : denote ss e (Var n) = e n. Proof. reflexivity. Qed.
Lemma mpt_mv m i : mpt m (mv i) = m i.
Proof. unfold mpt, mv. destruct (N.ltb_spec (N.of_nat (i + 20)) 20); [lia|]. f_equal. lia. Qed.
Lemma mpt_upd m i y n : mpt (upd m i y) n = set (mpt m) (mv i) y n.
Proof.
  unfold mpt, set, upd, mv. destruct (N.ltb_spec n 20), (N.eqb_spec n (N.of_nat (i + 20))); try lia; auto.
  - subst. replace (N.to_nat (N.of_nat (i + 20)) - 20)%nat with i by lia. now rewrite Nat.eqb_refl.
  - destruct (Nat.eqb_spec (N.to_nat n - 20) i); auto. lia.
Qed.
Lemma rpt_rv r i : rpt r (rv i) = r i.
Proof. unfold rpt, rv. destruct (N.ltb_spec (N.of_nat (i + 2)) 2); [lia|]. f_equal. lia. Qed.
Lemma rpt_upd r i y n : rpt (upd r i y) n = set (rpt r) (rv i) y n.
Proof.
  unfold rpt, set, upd, rv. destruct (N.ltb_spec n 2), (N.eqb_spec n (N.of_nat (i + 2))); try lia; auto.
  - subst. replace (N.to_nat (N.of_nat (i + 2)) - 2)%nat with i by lia. now rewrite Nat.eqb_refl.
  - destruct (Nat.eqb_spec (N.to_nat n - 2) i); auto. lia.
Qed.
Lemma total_sum n m : (1 <= n)%nat -> rawVal (mpt m) (sumExpr n) = total n m.
Proof.
  unfold rawVal. induction n as [|n IH]; [lia|]. intros _. destruct n as [|n].
  - cbn [sumExpr total val]. change 20%N with (mv 0). rewrite mpt_mv. lra.
  - change (sumExpr (S (S n))) with (Sym.Add (sumExpr (S n)) (Var (N.of_nat (20 + S n)))).
    change (total (S (S n)) m) with (total (S n) m + m (S n)). cbn [val]. rewrite IH by lia.
    replace (20 + S n)%nat with (S n + 20)%nat by lia. fold (mv (S n)). now rewrite mpt_mv.
Qed.
Lemma total_sumTo n m : total n m = sumTo n m.
Proof. induction n; cbn; congruence. Qed.
Lemma sumTo_ext n f g : (forall i, (i < n)%nat -> f i = g i) -> sumTo n f = sumTo n g.
Proof. induction n; cbn; intros H; auto. rewrite IHn by (intros; apply H; lia). now rewrite H by lia. Qed.
Lemma sumTo_scal n a f : sumTo n (fun i => a * f i) = a * sumTo n f.
Proof. induction n; cbn; [lra|]. rewrite IHn. lra. Qed.
Lemma sumTo_div n a f : sumTo n (fun i => f i / a) = sumTo n f / a.
Proof. induction n; cbn; [unfold Rdiv; lra|]. rewrite IHn. unfold Rdiv. lra. Qed.

Section Con.
Variable c : conv.
Hypothesis Ck : conCheck c = true.
Lemma ck : ((1 <= cv_na c)%nat /\ (cv_nr c < 18)%nat /\ length (cv_r c) = cv_nr c)
  /\ (forall j, (j < cv_nr c)%nat -> cS c (nth1 (cv_r c) j) (linear c j) = true)
  /\ (forall j, (j < cv_nr c)%nat -> sameCheck [] [] [] (sumE (cv_na c) (fun k => Mul (Num (coef c j k)) (nth1 (cv_xr c) k))) (Var (rv j)) = true)
  /\ (forall j k, (j < cv_nr c)%nat -> (k < cv_na c)%nat -> cD c (mv k) (nth1 (cv_r c) j) (nth2 (cv_dm c) j k) = true
      /\ cS c (nth2 (cv_dm c) j k) (Div (Sub (Num (coef c j k)) (nth1 (cv_r c) j)) (Site 0)) = true
      /\ forall l, (l < cv_na c)%nat -> cD c (mv l) (nth2 (cv_dm c) j k) (nth3 (cv_d2m c) j k l) = true
      /\ forall h, (h < cv_na c)%nat -> cD c (mv h) (nth3 (cv_d2m c) j k l) (nth4 (cv_d3m c) j k l h) = true)
  /\ sameCheck [] [] [] (sumE (cv_na c) (fun k => nth1 (cv_xr c) k)) (Num 1) = true
  /\ (forall i, (i < cv_na c)%nat -> cS c (nth1 (cv_x c) i) (Div (Var (mv i)) (Site 0)) = true
      /\ (rawOk (nth1 (cv_xr c) i) = true /\ from2 (nth1 (cv_xr c) i) = true)
      /\ cS c (subst (fun n => if N.ltb n 2 then Num 0 else nth1 (cv_r c) (N.to_nat n - 2)) (nth1 (cv_xr c) i)) (Div (Var (mv i)) (Site 0)) = true
      /\ forall j, (j < cv_nr c)%nat -> deriveCheck [] [] [] (rv j) (nth1 (cv_xr c) i) (nth2 (cv_dr c) i j) = true).
Proof.
  pose proof Ck as K. unfold conCheck in K. apply andb_prop in K. destruct K as [K K6]. apply andb_prop in K. destruct K as [K K5].
  apply andb_prop in K. destruct K as [K K4]. apply andb_prop in K. destruct K as [K K3]. apply andb_prop in K. destruct K as [K1 K2].
  apply Nat.leb_le in K1. apply Nat.ltb_lt in K2. apply Nat.eqb_eq in K3.
  assert (Q : forall j, (j < cv_nr c)%nat -> _) by exact (fun j => upto_ok _ _ j K4). cbv beta in Q.
  split; [auto|]. split; [|split; [|split; [|split; [auto|]]]].
  - intros j L. specialize (Q j L). apply andb_prop in Q. destruct Q as [Q _]. apply andb_prop in Q. apply Q.
  - intros j L. specialize (Q j L). apply andb_prop in Q. destruct Q as [Q _]. apply andb_prop in Q. apply Q.
  - intros j k Lj Lk. specialize (Q j Lj). apply andb_prop in Q. destruct Q as [_ Q]. apply (upto_ok _ _ k) in Q; auto.
    apply andb_prop in Q. destruct Q as [Q Q3]. apply andb_prop in Q. destruct Q as [Q1 Q2]. split; auto. split; auto.
    intros l Ll. apply (upto_ok _ _ l) in Q3; auto. apply andb_prop in Q3. destruct Q3 as [Q3 Q4]. split; auto.
    intros h Lh. now apply (upto_ok _ _ h) in Q4.
  - intros i Li. apply (upto_ok _ _ i) in K6; auto. apply andb_prop in K6. destruct K6 as [K6 A4]. apply andb_prop in K6. destruct K6 as [K6 A3].
    apply andb_prop in K6. destruct K6 as [A1 A2]. apply andb_prop in A2. split; auto. split; auto. split; auto. intros j Lj. now apply (upto_ok _ _ j) in A4.
Qed.

Lemma con_inside m : 0 < total (cv_na c) m -> inside (con_sites c) [] (mpt m).
Proof.
  intros H. split; [|intros v []]. intros s [<-|[]]. cbn [raw guard clear_of]. rewrite total_sum; auto. apply ck.
Qed.
Lemma conCall_pos x m : 0 < total (cv_na c) m -> conCall c x m = denote (con_sites c) (mpt m) x.
Proof. intros H. unfold conCall. destruct (Req_EM_T _ _); auto. lra. Qed.
Lemma site0 m : denote (con_sites c) (mpt m) (Site 0) = total (cv_na c) m.
Proof. unfold denote. cbn [val]. unfold siteVal, nth_site. cbn [nth N.to_nat con_sites guard raw clampVal]. apply total_sum. apply ck. Qed.
Lemma denote_num ss e q : denote ss e (Num q) = Q2R q. Proof. reflexivity. Qed.
Lemma denote_div ss e a b : denote ss e (Div a b) = denote ss e a / denote ss e b. Proof. reflexivity. Qed.
Lemma denote_sub ss e a b : denote ss e (Sub a b) = denote ss e a - denote ss e b. Proof. reflexivity. Qed.
Lemma denote_mul ss e a b : denote ss e (Mul a b) = denote ss e a * denote ss e b. Proof. reflexivity. Qed.

(** the total stays positive nearby *)
Lemma total_upd m i y : total (cv_na c) (upd m i y) = total (cv_na c) m + (if (i <? cv_na c)%nat then y - m i else 0).
Proof.
  induction (cv_na c) as [|n IH]; cbn [total]; [cbn; lra|]. rewrite IH. unfold upd at 1.
  destruct (Nat.eqb_spec n i).
  - subst. destruct (Nat.ltb_spec i i); [lia|]. destruct (Nat.ltb_spec i (S i)); [lra|lia].
  - destruct (Nat.ltb_spec i n), (Nat.ltb_spec i (S n)); try lia; lra.
Qed.
Lemma total_near m i : 0 < total (cv_na c) m -> locally (m i) (fun y => 0 < total (cv_na c) (upd m i y)).
Proof.
  intros H. exists (mkposreal _ H). intros y B. rewrite total_upd. unfold ball in B; cbn in B. unfold AbsRing_ball, abs, minus, plus, opp in B; cbn in B.
  apply Rabs_def2 in B. destruct (_ <? _)%nat; lra.
Qed.
Lemma con_partial x d m i : cD c (mv i) x d = true -> 0 < total (cv_na c) m -> partialM i (conCall c x) m (conCall c d m).
Proof.
  intros D H. unfold partialM. rewrite conCall_pos by auto.
  apply (is_derive_ext_loc (fun y => denote (con_sites c) (set (mpt m) (mv i) y) x)).
  - generalize (total_near m i H). apply filter_imp. intros y P. rewrite conCall_pos by auto. apply denote_ext. intros n. now rewrite mpt_upd.
  - rewrite <- (mpt_mv m i). apply deriveCheck_ok in D. apply D. now apply con_inside.
Qed.
Lemma con_same x y m : cS c x y = true -> 0 < total (cv_na c) m -> conCall c x m = denote (con_sites c) (mpt m) y.
Proof. intros D H. rewrite conCall_pos by auto. apply sameCheck_ok in D. apply D. now apply con_inside. Qed.

Lemma con_r_lin m j : 0 < total (cv_na c) m -> (j < cv_nr c)%nat ->
  con_r c j m = sumTo (cv_na c) (fun k => Q2R (coef c j k) * m k) / total (cv_na c) m.
Proof.
  intros H L. unfold con_r. rewrite (con_same _ (linear c j)) by (auto; now apply ck). unfold linear.
  rewrite denote_div, site0, sumE_ok. f_equal. apply sumTo_ext. intros k _. now rewrite denote_mul, denote_num, denote_var, mpt_mv.
Qed.
Lemma con_r_out m j : (cv_nr c <= j)%nat -> con_r c j m = 0.
Proof.
  intros L. unfold con_r, nth1. rewrite nth_overflow by (pose proof (proj2 (proj2 (proj1 ck))); lia).
  unfold conCall. destruct (Req_EM_T _ _); auto. apply Q2R_0.
Qed.
Lemma con_x_frac m i : 0 < total (cv_na c) m -> (i < cv_na c)%nat -> con_x c i m = m i / total (cv_na c) m.
Proof.
  intros H L. unfold con_x. destruct (proj2 (proj2 (proj2 (proj2 (proj2 ck)))) i L) as (A & _).
  rewrite (con_same _ _ m A H). now rewrite denote_div, site0, denote_var, mpt_mv.
Qed.
Lemma con_dm_lin m j k : 0 < total (cv_na c) m -> (j < cv_nr c)%nat -> (k < cv_na c)%nat ->
  con_dm c j k m = (Q2R (coef c j k) - con_r c j m) / total (cv_na c) m.
Proof.
  intros H Lj Lk. unfold con_dm. destruct (proj1 (proj2 (proj2 (proj2 ck))) j k Lj Lk) as (_ & A & _).
  rewrite (con_same _ _ m A H). rewrite denote_div, denote_sub, denote_num, site0. unfold con_r. now rewrite conCall_pos.
Qed.
(** mole fractions from the independent variables, before tiny ones are set to zero *)
Lemma xr_of_r m i : 0 < total (cv_na c) m -> (i < cv_na c)%nat ->
  denote [] (rpt (fun j => con_r c j m)) (nth1 (cv_xr c) i) = m i / total (cv_na c) m.
Proof.
  intros H L. destruct (proj2 (proj2 (proj2 (proj2 (proj2 ck)))) i L) as (_ & (B & _) & A & _).
  pose proof (con_same _ _ m A H) as E. rewrite denote_div, site0, denote_var, mpt_mv in E. rewrite <- E.
  rewrite conCall_pos by auto. rewrite subst_ok by auto. apply denote_ext. intros n. unfold rpt.
  destruct (N.ltb n 2); [symmetry; apply Q2R_0|]. unfold con_r. now rewrite conCall_pos.
Qed.
Lemma inside_nil e : inside [] [] e.
Proof. split; intros ? []. Qed.
Lemma r_of_xr r j : (j < cv_nr c)%nat ->
  sumTo (cv_na c) (fun k => Q2R (coef c j k) * denote [] (rpt r) (nth1 (cv_xr c) k)) = r j.
Proof.
  intros L. pose proof (proj1 (proj2 (proj2 ck)) j L) as A. apply sameCheck_ok in A. specialize (A (rpt r) (inside_nil _)).
  rewrite sumE_ok, denote_var, rpt_rv in A. exact A.
Qed.
Lemma xr_sum r : sumTo (cv_na c) (fun k => denote [] (rpt r) (nth1 (cv_xr c) k)) = 1.
Proof.
  pose proof (proj1 (proj2 (proj2 (proj2 (proj2 ck))))) as A. apply sameCheck_ok in A. specialize (A (rpt r) (inside_nil _)).
  rewrite sumE_ok, denote_num, Q2R_1 in A. exact A.
Qed.
Lemma xr_partial r i j : (i < cv_na c)%nat -> (j < cv_nr c)%nat ->
  partialM j (fun r => denote [] (rpt r) (nth1 (cv_xr c) i)) r (con_dr c i j r).
Proof.
  intros Li Lj. destruct (proj2 (proj2 (proj2 (proj2 (proj2 ck)))) i Li) as (_ & _ & _ & A). specialize (A j Lj).
  apply deriveCheck_ok in A. specialize (A (rpt r) (inside_nil _)). rewrite rpt_rv in A. unfold partialM, con_dr.
  revert A. apply is_derive_ext. intros y. apply denote_ext. intros n. now rewrite rpt_upd.
Qed.
End Con.
